(** * Model of openap/extra/filters.py

    Time stamps and values are real numbers (no NaN in the input).  The spline fit of [Spline.filter]
    ([scipy.interpolate.UnivariateSpline]) and plotting are not modelled; the pseudo-inverse used by
    [SavitzkyGolay.filter] is an argument.  The result of the time-weighted filter uses [ext] because
    its divisions may be by zero. *)
From Coq Require Import List Bool ZArith Reals.
From Verif Require Import Num Py.
Import ListNotations.
Open Scope R_scope.

(** the pairs built by [zip(X, Y)] sorted by time stamp; Python's sort is stable
    (openap/extra/filters.py:14-15) *)
Fixpoint insert_xy (p : R * R) (l : list (R * R)) : list (R * R) :=
  match l with
  | [] => [p]
  | q :: t => if Rleb (fst p) (fst q) then p :: l else q :: insert_xy p t
  end.
(** openap/extra/filters.py:14-15 *)
Fixpoint sort_xy (l : list (R * R)) : list (R * R) :=
  match l with [] => [] | p :: t => insert_xy p (sort_xy t) end.

(** openap/extra/filters.py:13-17; unpacking an empty [zip] raises ValueError *)
Definition sortxy (X Y : list R) : py (list R * list R) :=
  match sort_xy (combine X Y) with
  | [] => inl ValueError
  | l => inr (map fst l, map snd l)
  end.

(** [np.where(X == x)[0][0]] followed by [Y[i]]; [None] when no time stamp equals [x]
    (openap/extra/filters.py:33-36) *)
Fixpoint value_at (l : list (R * R)) (x : R) : option R :=
  match l with
  | [] => None
  | (t, y) :: r => if Req_EM_T t x then Some y else value_at r x
  end.

(** the loop of openap/extra/filters.py:30-38 *)
Fixpoint fill (l : list (R * R)) (y : R) (xs : list Z) : list R :=
  match xs with
  | [] => []
  | x :: r => let y := match value_at l (IZR x) with Some v => v | None => y end in y :: fill l y r
  end.

(** [range(a, b)] (openap/extra/filters.py:27) *)
Definition zrange (a b : Z) : list Z := map (fun k => (a + Z.of_nat k)%Z) (seq 0 (Z.to_nat (b - a))).

(** openap/extra/filters.py:19-40 *)
Definition simplefill (X Y : list R) : py (list Z * list R) :=
  match sort_xy (combine X Y) with
  | [] => inl ValueError
  | (p :: _) as l =>
      let Xfull := zrange (Rtrunc (fst p)) (Rtrunc (fst (last l p) + 1)) in
      inr (Xfull, fill l 0 Xfull)
  end.

(** ** Savitzky-Golay *)
(** openap/extra/filters.py:64-79 on integer arguments: the window size and order kept by the object *)
Definition sg_init (window_size order : Z) : py (nat * nat) :=
  let w := Z.abs window_size in
  let o := Z.abs order in
  if negb (w mod 2 =? 1)%Z || (w <? 1)%Z then inl TypeError
  else if (w <? o + 2)%Z then inl TypeError
  else inr (Z.to_nat w, Z.to_nat o).

(** [(window_size - 1) // 2] (openap/extra/filters.py:88) *)
Definition half_window (w : nat) : nat := Nat.div (w - 1) 2.

(** the matrix [b]: one row per offset, one column per power (openap/extra/filters.py:90-92) *)
Definition sg_matrix (h o : nat) : list (list R) :=
  map (fun k => map (fun i => IZR (k ^ Z.of_nat i)) (seq 0 (o + 1))) (zrange (- Z.of_nat h) (Z.of_nat h + 1)).

(** padding of the signal at both ends (openap/extra/filters.py:96-98) *)
Definition sg_pad (h : nat) (Y : list R) : list R :=
  let y0 := hd 0 Y in
  let yl := last Y 0 in
  let n := length Y in
  let firstvals := map (fun y => y0 - Rabs (y - y0)) (rev (firstn h (skipn 1 Y))) in
  let lastvals := map (fun y => yl + Rabs (y - yl)) (rev (skipn (n - 1 - h) (firstn (n - 1) Y))) in
  firstvals ++ Y ++ lastvals.

(** sum of a list of numbers ([np.convolve], [np.sum], [np.average]: openap/extra/filters.py:99, 161, 166) *)
Fixpoint rsum (l : list R) : R := match l with [] => 0 | x :: t => x + rsum t end.

(** one value of [np.convolve(a, v, mode="valid")] for [length a <= length v] (openap/extra/filters.py:99) *)
Definition conv_at (a v : list R) (i : nat) : R :=
  rsum (map (fun j => nth j a 0 * nth (i + (length a - 1) - j) v 0) (seq 0 (length a))).
(** [np.convolve(m, Y1, mode="valid")]: the shorter sequence is slid over the longer one
    (openap/extra/filters.py:99) *)
Definition convolve_valid (a v : list R) : list R :=
  if Nat.leb (length a) (length v)
  then map (conv_at a v) (seq 0 (length v - length a + 1))
  else map (conv_at v a) (seq 0 (length a - length v + 1)).

(** openap/extra/filters.py:81-101; [pinv] stands for [np.linalg.pinv]; [deriv] is not negative *)
Definition sg_filter (pinv : list (list R) -> list (list R)) (w o deriv : nat) (interpolate : bool)
  (X Y : list R) : py (list R * list R) :=
  let filtered (X Y : list R) :=
    let h := half_window w in
    match nth_error (pinv (sg_matrix h o)) deriv with
    | None => inl IndexError
    | Some m => inr (X, convolve_valid m (sg_pad h Y))
    end in
  if interpolate
  then match simplefill X Y with inl e => inl e | inr (Xf, Yf) => filtered (map IZR Xf) Yf end
  else match sortxy X Y with inl e => inl e | inr (Xs, Ys) => filtered Xs Ys end.

(** ** Spline weights *)
(** [scipy.signal.windows.gaussian(25, sigma)], normalised (openap/extra/filters.py:119-120) *)
Definition gauss25 (sigma : R) : list R :=
  map (fun k => exp (- (INR k - 12) ^ 2 / (2 * sigma * sigma))) (seq 0 25).
(** [b / b.sum()] (openap/extra/filters.py:120-121) *)
Definition normalised (b : list R) : list R := map (fun x => x / rsum b) b.
(** index of the sample used for position [j] outside the series: the default mode "reflect" of
    [scipy.ndimage.convolve1d] (openap/extra/filters.py:120-121) *)
Definition reflect_index (n : nat) (j : Z) : nat :=
  let r := (j mod (2 * Z.of_nat n))%Z in
  if (r <? Z.of_nat n)%Z then Z.to_nat r else Z.to_nat (2 * Z.of_nat n - 1 - r).
(** [scipy.ndimage.convolve1d] with 25 weights (openap/extra/filters.py:120-121) *)
Definition convolve1d (s b : list R) : list R :=
  map (fun i => rsum (map (fun k => nth k b 0 * nth (reflect_index (length s) (Z.of_nat i + 12 - Z.of_nat k)) s 0) (seq 0 25)))
      (seq 0 (length s)).
(** openap/extra/filters.py:114-123 *)
Definition spline_kernel (series : list R) (sigma : R) : list R * list R :=
  let b := normalised (gauss25 sigma) in
  let averages := convolve1d series b in
  let variances := convolve1d (map (fun p => (fst p - snd p) ^ 2) (combine series averages)) b in
  (averages, map (fun v => if Req_EM_T v 0 then 1 else v) variances).

(** ** Time-weighted filter *)
(** [np.sum] on possibly undefined numbers (openap/extra/filters.py:166-167) *)
Fixpoint esum (l : list ext) : ext := match l with [] => Fin 0 | x :: t => eadd x (esum t) end.
(** [Xwin[1:] - Xwin[:-1]] (openap/extra/filters.py:165) *)
Fixpoint diffs (l : list R) : list R :=
  match l with x :: ((y :: _) as t) => (y - x) :: diffs t | _ => [] end.
(** the slice [l[a:b]] for [0 <= a <= b] (openap/extra/filters.py:161-164) *)
Definition slice {A : Type} (a b : nat) (l : list A) : list A := firstn (b - a) (skipn a l).

(** one step of the loop, openap/extra/filters.py:160-169; [YF] holds the values computed so far,
    [window_size] is not negative; an empty window raises IndexError at [Ywin[0]] *)
Definition twf_step (w : nat) (X : list R) (y : R) (i : nat) (YF : list ext) : py ext :=
  if (i <? w)%nat then
    let a := slice 0 (i - 1) YF in
    inr (ediv (eadd (ediv (esum a) (Fin (INR (length a)))) (Fin y)) (Fin 2))
  else
    let Xwin := rev (slice (i - w) (i - 1) X) in
    let Ywin := rev (slice (i - w) (i - 1) YF) in
    match Ywin with
    | [] => inl IndexError
    | y0 :: Yrest =>
        let inv := map (fun d => ediv (Fin 1) (Fin d)) (diffs Xwin) in
        let yw := ediv (eadd y0 (esum (map (fun p => emul (fst p) (snd p)) (combine inv Yrest))))
                       (eadd (Fin 1) (esum inv)) in
        inr (ediv (eadd yw (Fin y)) (Fin 2))
    end.
(** openap/extra/filters.py:159-170 *)
Fixpoint twf_loop (w : nat) (X : list R) (Y : list R) (i : nat) (YF : list ext) : py (list ext) :=
  match Y with
  | [] => inr YF
  | y :: t => match twf_step w X y i YF with
              | inl e => inl e
              | inr v => twf_loop w X t (S i) (YF ++ [v])
              end
  end.
(** openap/extra/filters.py:152-171; fewer than two samples raise IndexError at line 157, none ValueError *)
Definition twf_filter (w : nat) (X Y : list R) : py (list R * list ext) :=
  match sortxy X Y with
  | inl e => inl e
  | inr (Xs, y0 :: y1 :: Yt) =>
      match twf_loop w Xs Yt 2 [Fin y0; Fin y1] with inl e => inl e | inr YF => inr (Xs, YF) end
  | inr _ => inl IndexError
  end.
