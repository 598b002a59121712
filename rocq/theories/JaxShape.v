(** * What kind of object the JAX models return

    Values are reduced to what the decorator and jax.grad look at: whether the object comes from JAX, and its shape
    (a number, or a one-dimensional array).  The numbers themselves are the subject of [Jax.v]. *)
From Coq Require Import Reals List Bool Arith.
From Verif Require Import Num Py Nd Aero Thrust Drag Fuel Emission.
Import ListNotations.
Open Scope R_scope.

(** [type(arg).__module__] starts with "jax" or not, and the shape: [None] is a number
    (openap/extra/__init__.py:17-23, 57) *)
Record kind : Type := mkK { k_jax : bool; k_shape : option nat }.

(** broadcasting of numbers and one-dimensional arrays (Python operators, e.g. openap/drag.py:116-124) *)
Definition join_shape (s t : option nat) : option (option nat) :=
  match s, t with
  | None, _ => Some t
  | _, None => Some s
  | Some n, Some m => match bc n m with Some k => Some (Some k) | None => None end
  end.
(** a Python operator: the result comes from JAX when one operand does (e.g. openap/drag.py:116-124) *)
Definition k_op (x y : py kind) : py kind :=
  match x, y with
  | inl e, _ => inl e
  | _, inl e => inl e
  | inr a, inr b => match join_shape (k_shape a) (k_shape b) with
                    | Some s => inr (mkK (k_jax a || k_jax b) s)
                    | None => inl ValueError
                    end
  end.
(** a function of jax.numpy returns a JAX array (openap/backends/jax_backend.py:43-110) *)
Definition k_fn (x : py kind) : py kind := match x with inl e => inl e | inr a => inr (mkK true (k_shape a)) end.

(** openap/backends/jax_backend.py:43-121 on kinds; [pi] is a Python float *)
Definition SH : backend := {|
  T := py kind; C := py kind;
  cst := fun _ => inr (mkK false None);
  add := k_op; sub := k_op; mul := k_op; div := k_op; neg := fun x => x;
  powi := fun x _ => x; power := k_op;
  bsqrt := k_fn; bexp := k_fn; blog := k_fn; bsin := k_fn; bcos := k_fn; btan := k_fn;
  barcsin := k_fn; barccos := k_fn; barctan := k_fn; btanh := k_fn;
  barctan2 := fun x y => k_fn (k_op x y); babs := k_fn;
  maximum := fun x y => k_fn (k_op x y); minimum := fun x y => k_fn (k_op x y);
  clip := fun x y z => k_fn (k_op (k_op x y) z); fmod := fun x y => k_fn (k_op x y);
  gt := k_op; where_ := fun c x y => k_fn (k_op c (k_op x y));
  interp := fun x _ => k_fn x;
  bpi := inr (mkK false None)
|}.

(** ** The bodies of the methods that call other decorated methods, with those methods as parameters *)
Section Bodies.
Context (b : backend) (a : drag_par).
Local Notation "# r" := (cst b r) (at level 1, r at level 0, format "# r").
Local Notation "x +: y" := (add b x y) (at level 50, left associativity).
Local Notation "x -: y" := (sub b x y) (at level 50, left associativity).
Local Notation "x *: y" := (mul b x y) (at level 40, left associativity).
Local Notation "x /: y" := (div b x y) (at level 40, left associativity).
(** openap/drag.py:153-156 *)
Definition calc_drag_body (cl : T b -> T b -> T b -> option (T b) -> T b -> T b * T b) (mass tas alt cd0 k vs dT : T b) : T b :=
  let '(c, qS) := cl mass tas alt (Some vs) dT in
  let cd := cd0 +: k *: powi b c 2 in
  cd *: qS.
(** openap/drag.py:179-214; [_cl] is called without the vertical rate (line 186) *)
Definition clean_body (wave : bool) (cl : T b -> T b -> T b -> option (T b) -> T b -> T b * T b)
    (calc : T b -> T b -> T b -> T b -> T b -> T b -> T b -> T b) (mass tas alt vs dT : T b) : T b :=
  let cd0 := #(cd0_clean a) in
  let k := #(k_clean a) in
  let dCdw :=
    if wave then
      let mach := tas2mach b (tas *: #kts) (alt *: #ft) dT in
      let '(c, _) := cl mass tas alt None dT in
      let sweep := #(wing_sweep a) *: bpi b /: #180 in
      let tc := #(match wing_tc a with Some t => t | None => 0.12 end) in
      let cos_sweep := bcos b sweep in
      let kappa := #0.95 in
      let mach_crit := kappa /: cos_sweep -: tc /: powi b cos_sweep 2 -: #0.1 *: c /: powi b cos_sweep 3 -: #0.108 in
      let dmach := maximum b (mach -: mach_crit) #0.0 in
      #20 *: powi b dmach 4
    else #0 in
  let cd0 := cd0 +: dCdw in
  calc mass tas alt cd0 k vs dT.
(** openap/drag.py:241-284 *)
Definition nonclean_body (calc : T b -> T b -> T b -> T b -> T b -> T b -> T b -> T b)
    (mass tas alt flap_angle vs dT : T b) (landing_gear : bool) : T b :=
  let cd0 := #(cd0_clean a) in
  let k := #(k_clean a) in
  let delta_cd_flap :=
    #(lambda_f a) *: power b #(cf_c a) #1.38 *: #(Sf_S a)
      *: powi b (bsin b (flap_angle *: bpi b /: #180)) 2 in
  let delta_cd_gear :=
    if landing_gear then
      #(mtow a) *: #g0 /: #(wing_area a) *: #3.16e-5 *: power b #(mtow a) #(-0.215)
    else #0 in
  let cd0_total := cd0 +: delta_cd_flap +: delta_cd_gear in
  let delta_e_flap :=
    (if rear_mounted a then #0.0046 else #0.0026) *: flap_angle in
  let ar := powi b #(wing_span a) 2 /: #(wing_area a) in
  let k_total := #1 /: (#1 /: k +: bpi b *: ar *: delta_e_flap) in
  calc mass tas alt cd0_total k_total vs dT.
(** openap/fuel.py:190-200 *)
Definition enroute_body (clean : T b -> T b -> T b -> T b -> T b -> T b) (at_thrust : T b -> T b)
    (mass tas alt vs acc dT : T b) : T b :=
  let D := clean mass tas alt vs dT in
  let gamma := barctan2 b (vs *: #fpm) (tas *: #kts) in
  let T := D +: mass *: #9.81 *: bsin b gamma +: mass *: acc in
  at_thrust T.
(** openap/fuel.py:156-158 *)
Definition takeoff_body (takeoff : T b -> T b -> T b) (at_thrust : T b -> T b) (tas alt throttle : T b) : T b :=
  throttle *: at_thrust (takeoff tas alt).
End Bodies.

(** ** The decorator *)
(** openap/extra/__init__.py:7-24 *)
Definition symbolic (x : T SH) : bool := match x with inr a => k_jax a | inl _ => false end.
(** openap/extra/__init__.py:57-62: [np.array([arg])] and [np.asarray(arg)] *)
Definition to_array (x : T SH) : T SH :=
  match x with inr a => inr (mkK (k_jax a) (match k_shape a with None => Some 1%nat | s => s end)) | e => e end.
(** openap/extra/__init__.py:79-86 [to_scalar]: only NumPy arrays become numbers *)
Definition to_scalar (x : T SH) : T SH :=
  match x with
  | inr a => if k_jax a then x else match k_shape a with Some 1%nat => inr (mkK false None) | _ => x end
  | e => e
  end.
(** openap/extra/__init__.py:43-91: what happens to the arguments and to the result *)
Definition pre (args : list (T SH)) : T SH -> T SH := if existsb symbolic args then fun x => x else to_array.
(** openap/extra/__init__.py:79-91 *)
Definition post (args : list (T SH)) : T SH -> T SH := if existsb symbolic args then fun x => x else to_scalar.
(** the arguments that are given: a default is not seen by the wrapper (openap/extra/__init__.py:45) *)
Definition given (l : list (option (T SH))) : list (T SH) := flat_map (fun o => match o with Some x => [x] | None => [] end) l.
(** a default is the plain number 0 (e.g. openap/drag.py:164-165) or 1 (openap/fuel.py:138) *)
Definition dflt (f : T SH -> T SH) (o : option (T SH)) : T SH := match o with Some x => f x | None => inr (mkK false None) end.

(** ** The decorated methods *)
Section Methods.
Context (a : drag_par) (e : thrust_par) (f : fuel_par).
(** openap/drag.py:92-126 [_cl] *)
Definition d_cl (mass tas alt : T SH) (vs : option (T SH)) (dT : T SH) : T SH * T SH :=
  let args := given [Some mass; Some tas; Some alt; vs; Some dT] in
  let p := pre args in
  let r := cl_qS SH a (p mass) (p tas) (p alt) (dflt p vs) (p dT) in
  (post args (fst r), post args (snd r)).
(** openap/drag.py:128-156 [_calc_drag] *)
Definition d_calc_drag (mass tas alt cd0 k vs dT : T SH) : T SH :=
  let args := [mass; tas; alt; cd0; k; vs; dT] in
  let p := pre args in
  post args (calc_drag_body SH d_cl (p mass) (p tas) (p alt) (p cd0) (p k) (p vs) (p dT)).
(** openap/drag.py:158-214 [clean] *)
Definition d_clean (wave : bool) (mass tas alt : T SH) (vs dT : option (T SH)) : T SH :=
  let args := given [Some mass; Some tas; Some alt; vs; dT] in
  let p := pre args in
  post args (clean_body SH a wave d_cl d_calc_drag (p mass) (p tas) (p alt) (dflt p vs) (dflt p dT)).
(** openap/drag.py:216-284 [nonclean] *)
Definition d_nonclean (mass tas alt flap : T SH) (vs dT : option (T SH)) (gear : bool) : T SH :=
  let args := given [Some mass; Some tas; Some alt; Some flap; vs; dT] in
  let p := pre args in
  post args (nonclean_body SH a d_calc_drag (p mass) (p tas) (p alt) (p flap) (dflt p vs) (dflt p dT) gear).
(** openap/thrust.py:122-163 [takeoff] *)
Definition d_takeoff (tas : T SH) (alt dT : option (T SH)) : T SH :=
  let args := given [Some tas; alt; dT] in
  let p := pre args in
  post args (takeoff_thrust SH e (p tas) (dflt p alt) (dflt p dT)).
(** openap/thrust.py:179-245 [climb] *)
Definition d_climb (tas alt roc : T SH) (dT : option (T SH)) : T SH :=
  let args := given [Some tas; Some alt; Some roc; dT] in
  let p := pre args in
  post args (climb_thrust SH e (p tas) (p alt) (p roc) (dflt p dT)).
(** openap/thrust.py:165-177 [cruise] *)
Definition d_cruise (tas alt : T SH) (dT : option (T SH)) : T SH :=
  let args := given [Some tas; Some alt; dT] in
  let p := pre args in
  post args (d_climb (p tas) (p alt) (cst SH 0) (Some (dflt p dT))).
(** openap/thrust.py:247-262 [descent_idle], not decorated *)
Definition d_idle (tas alt : T SH) (dT : option (T SH)) : T SH :=
  mul SH (cst SH 0.07) (d_takeoff tas (Some alt) (Some (dflt (fun x => x) dT))).
(** openap/fuel.py:97-131 [at_thrust] *)
Definition d_at_thrust (t : T SH) : T SH := post [t] (at_thrust SH f (pre [t] t)).
(** openap/fuel.py:133-158 [takeoff] with an altitude *)
Definition d_takeoff_fuel (tas alt : T SH) (throttle : option (T SH)) : T SH :=
  let args := given [Some tas; Some alt; throttle] in
  let p := pre args in
  post args (takeoff_body SH (fun tas alt => d_takeoff tas (Some alt) None) d_at_thrust (p tas) (p alt) (dflt p throttle)).
(** openap/fuel.py:160-200 [enroute] *)
Definition d_enroute (wave : bool) (mass tas alt : T SH) (vs acc dT : option (T SH)) : T SH :=
  let args := given [Some mass; Some tas; Some alt; vs; acc; dT] in
  let p := pre args in
  post args (enroute_body SH (fun mass tas alt vs dT => d_clean wave mass tas alt (Some vs) (Some dT)) d_at_thrust
    (p mass) (p tas) (p alt) (dflt p vs) (dflt p acc) (dflt p dT)).
(** openap/emission.py:60-114 [co2], [h2o], [soot], [sox] *)
Definition d_prop (g : T SH -> T SH) (ffac : T SH) : T SH := post [ffac] (g (pre [ffac] ffac)).
(** openap/emission.py:116-259 [nox], [co], [hc] *)
Definition d_em (g : T SH -> T SH -> T SH -> T SH -> T SH) (ffac tas : T SH) (alt dT : option (T SH)) : T SH :=
  let args := given [Some ffac; Some tas; alt; dT] in
  let p := pre args in
  post args (g (p ffac) (p tas) (dflt p alt) (dflt p dT)).
End Methods.
