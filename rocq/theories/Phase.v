(** * Model of openap/phase.py (class FlightPhase) *)
From Coq Require Import Reals List Bool ZArith.
From Verif Require Import Num Fuzzy Fuel.
Import ListNotations.
Open Scope R_scope.

(** One sample of the trajectory given to [set_trajectory] (openap/phase.py:46-66); the four
    arrays have equal lengths by the check at line 61. *)
Record sample : Type := mkSample { s_t : R; s_alt : R; s_spd : R; s_roc : R }.

(** openap/phase.py:16-19 *)
Definition alt_range : list R := arange 0 1 40000.
Definition roc_range : list R := arange (-4000) 0.1 80000.
Definition spd_range : list R := arange 0 1 600.
Definition states : list R := arange 0 0.01 600.

(** membership array paired with its universe *)
Definition tab (f : R -> ext) (l : list R) : list (R * R) := map (fun x => (x, fval (f x))) l.

(** openap/phase.py:21-23 *)
Definition alt_gnd := tab (fun x => zmf x 0 200) alt_range.
Definition alt_lo := tab (fun x => gaussmf x 10000 10000) alt_range.
Definition alt_hi := tab (fun x => gaussmf x 35000 20000) alt_range.
(** openap/phase.py:25-27 *)
Definition roc_zero := tab (fun x => gaussmf x 0 100) roc_range.
Definition roc_plus := tab (fun x => smf x 10 1000) roc_range.
Definition roc_minus := tab (fun x => zmf x (-1000) (-10)) roc_range.
(** openap/phase.py:29-31 *)
Definition spd_hi := tab (fun x => gaussmf x 600 100) spd_range.
Definition spd_md := tab (fun x => gaussmf x 300 100) spd_range.
Definition spd_lo := tab (fun x => gaussmf x 0 50) spd_range.
(** openap/phase.py:33-37: membership of state k (1 ground .. 5 level) *)
Definition state_mf (k : nat) (x : R) : R := fval (gaussmf x (INR k) 0.1).

(** openap/phase.py:101-108: [max(min(v, range[-1]), range[0])], applied twice in the source
    (the second time is the identity) *)
Definition clamp (v : R) (rg : list R) : R := Rmax (Rmin v (last rg 0)) (hd 0 rg).

(** openap/phase.py:110-141: the five rule activations at the clamped means *)
Definition rules (alt spd roc : R) : list R :=
  let alt := clamp alt alt_range in
  let spd := clamp spd spd_range in
  let roc := clamp roc roc_range in
  let a_gnd := interp_membership alt_gnd alt in
  let a_lo := interp_membership alt_lo alt in
  let a_hi := interp_membership alt_hi alt in
  let s_hi := interp_membership spd_hi spd in
  let s_md := interp_membership spd_md spd in
  let s_lo := interp_membership spd_lo spd in
  let r_zero := interp_membership roc_zero roc in
  let r_plus := interp_membership roc_plus roc in
  let r_minus := interp_membership roc_minus roc in
  [ Rmin (Rmin a_gnd r_zero) s_lo;
    Rmin (Rmin a_lo r_plus) s_md;
    Rmin (Rmin a_lo r_minus) s_md;
    Rmin (Rmin a_hi r_zero) s_hi;
    Rmin (Rmin a_lo r_zero) s_md ].

(** openap/phase.py:129-154: [np.fmin] of each rule with its state array, then the maximum *)
Definition aggregated (rs : list R) (x : R) : R :=
  rmaxl (map (fun k => Rmin (nth k rs 0) (state_mf (S k) x)) (seq 0 5)).

(** openap/phase.py:156 *)
Definition state_raw (alt spd roc : R) : R :=
  defuzz_lom (map (fun x => (x, aggregated (rules alt spd roc) x)) states).

(** Python's [round] to an integer: half to even (openap/phase.py:157) *)
Definition py_round (x : R) : Z :=
  let f := Int_part x in
  if Rltb (x - IZR f) (1 / 2) then f
  else if Rltb (1 / 2) (x - IZR f) then (f + 1)%Z
  else if Z.even f then f else (f + 1)%Z.

(** openap/phase.py:39, 85: labels, "NA" included *)
Inductive label : Type := NA | GND | CL | DE | CR | LVL.

(** openap/phase.py:39 and 164: dictionary lookup *)
Definition state_lable_map (s : Z) : py label :=
  match s with
  | 1%Z => inr GND | 2%Z => inr CL | 3%Z => inr DE | 4%Z => inr CR | 5%Z => inr LVL
  | _ => inl KeyError
  end.

(** openap/phase.py:101-164: label of a window from its mean values *)
Definition window_label (alt spd roc : R) : py label :=
  let state := py_round (state_raw alt spd roc) in
  let state := if (6 <? state)%Z then 6%Z else state in
  let state := if (state <? 1)%Z then 1%Z else state in
  state_lable_map state.

(** [np.mean] (openap/phase.py:101-103) *)
Definition mean (l : list R) : R := fold_right Rplus 0 l / INR (length l).

(** openap/phase.py:56 and 87: window number of every sample, [(ts - ts[0]) // twindow] *)
Definition twindows (w : R) (l : list sample) : list Z :=
  match l with
  | [] => []
  | s0 :: _ => map (fun s => Int_part ((s_t s - s_t s0) / w)) l
  end.

(** Python's [max] of a non-empty list of integers (openap/phase.py:89) *)
Definition zmaxl (l : list Z) : Z := match l with [] => 0%Z | a :: l' => fold_left Z.max l' a end.

(** boolean-mask selection [arr[mask]] (openap/phase.py:93-98) *)
Definition select {A} (mask : list bool) (l : list A) : list A :=
  map snd (filter fst (combine mask l)).

(** slice assignment [labels[i:j] = new] (openap/phase.py:165) *)
Definition slice_assign {A} (i j : nat) (new l : list A) : list A :=
  firstn i l ++ new ++ skipn (Nat.max i j) l.

(** openap/phase.py:90-165: body of the loop for window number [tw] *)
Definition label_window (l : list sample) (tws : list Z) (tw : Z) (labels : list label) : py (list label) :=
  if existsb (Z.eqb tw) tws then
    let mask := map (Z.eqb tw) tws in
    let idxchk := select mask (seq 0 (length l)) in
    let chk := select mask l in
    match window_label (mean (map s_alt chk)) (mean (map s_spd chk)) (mean (map s_roc chk)) with
    | inl e => inl e
    | inr lab =>
        inr (slice_assign (hd 0%nat idxchk) (last idxchk 0%nat + 1) (repeat lab (length idxchk)) labels)
    end
  else inr labels.

(** openap/phase.py:68-167 [phaselabel] after [set_trajectory] with a non-empty trajectory *)
Definition phaselabel (w : R) (l : list sample) : py (list label) :=
  let tws := twindows w l in
  fold_left (fun acc k => match acc with inl e => inl e | inr labels => label_window l tws (Z.of_nat k) labels end)
            (seq 0 (Z.to_nat (zmaxl tws))) (inr (repeat NA (length l))).

(** ** Index functions; [g f i] reads field [f] of sample [i] *)
Section Indices.
Context (tr : list sample).
(** array indexing; all indices used are in range *)
Definition g (f : sample -> R) (i : nat) : R := f (nth i tr (mkSample 0 0 0 0)).

(** openap/phase.py:216-221: last index of the initial run below 1500 ft *)
Fixpoint run_up (is : list nat) (iend : nat) : nat :=
  match is with
  | [] => iend
  | i :: is' => if Rltb (g s_alt i) 1500 then run_up is' i else iend
  end.

(** openap/phase.py:225-232: walk back to the start of the take-off roll *)
Fixpoint roll_back (is : list nat) (spdtmp : R) (istart : nat) : nat :=
  match is with
  | [] => istart
  | i :: is' =>
      if Rltb (g s_spd i) 30 && Rltb spdtmp (g s_spd i) then istart
      else if Rltb (g s_spd i) 5 then istart
      else roll_back is' (g s_spd i) i
  end.

(** openap/phase.py:248-251: first altitude jump *)
Fixpoint first_jump (is : list nat) (ilof : nat) : nat :=
  match is with
  | [] => ilof
  | i :: is' => if Rltb 10 (Rabs (g s_alt i - g s_alt (i - 1))) then i else first_jump is' ilof
  end.

(** openap/phase.py:212-257 [_get_to_ic] *)
Definition get_to_ic : option (nat * nat * nat) :=
  let iend := run_up (seq 0 (length tr)) 0 in
  let istart := roll_back (rev (seq 0 iend)) (g s_spd iend) 0 in
  if Rltb 300 (g s_t iend - g s_t istart) then None
  else if (iend - istart <? 10)%nat then None
  else if Rltb (g s_alt iend) 200 then None
  else
    let ilof := first_jump (seq (istart + 1) (iend - (istart + 1))) istart in
    if (ilof - istart <? 5)%nat then None
    else Some (istart, ilof, iend + 1)%nat.

(** openap/phase.py:264-268: start of the final run below 1500 ft *)
Fixpoint run_down (is : list nat) (istart : nat) : nat :=
  match is with
  | [] => istart
  | i :: is' => if Rltb (g s_alt i) 1500 then run_down is' i else istart
  end.

(** openap/phase.py:272-279: end of the landing deceleration *)
Fixpoint decel (is : list nat) (spdtmp : R) (iend : nat) : nat :=
  match is with
  | [] => iend
  | i :: is' =>
      if Rleb (g s_spd i) 50 && Rleb spdtmp (g s_spd i) then iend
      else if Rltb (g s_spd i) 30 then iend
      else decel is' (g s_spd i) i
  end.

(** openap/phase.py:295-298: last altitude jump *)
Fixpoint last_jump (is : list nat) (ild : nat) : nat :=
  match is with
  | [] => ild
  | i :: is' => if Rltb 10 (Rabs (g s_alt i - g s_alt (i + 1))) then i else last_jump is' ild
  end.

(** openap/phase.py:259-304 [_get_fa_ld]; integer differences are those of the source (Z) *)
Definition get_fa_ld : option (nat * nat * nat) :=
  let istart := run_down (rev (seq 0 (length tr))) 0 in
  let iend := decel (seq istart (length tr - istart)) (g s_spd istart) 0 in
  if Rltb (g s_alt istart) 100 then None
  else
    let ild := last_jump (rev (seq istart (iend - 1 - istart))) iend in
    if (Z.of_nat ild - Z.of_nat istart <? 5)%Z || (Z.of_nat iend - Z.of_nat ild <? 5)%Z then None
    else Some (istart, ild, iend + 1)%nat.
End Indices.

(** indices of the samples carrying a label, [np.where(labels == x)[0]] (openap/phase.py:312, 325) *)
Definition label_eqb (a b : label) : bool :=
  match a, b with
  | NA, NA | GND, GND | CL, CL | DE, DE | CR, CR | LVL, LVL => true
  | _, _ => false
  end.
Definition where_label (x : label) (labels : list label) : list nat :=
  map snd (filter (fun p => label_eqb x (fst p)) (combine labels (seq 0 (length labels)))).

(** openap/phase.py:306-317 [_get_cl], given the labels *)
Definition get_cl (labels : list label) : option (nat * nat) :=
  match where_label CL labels with [] => None | i :: is' => Some (i, last (i :: is') 0%nat) end.

(** openap/phase.py:319-335 [_get_de]; the flag is isCDA *)
Definition get_de (labels : list label) : option (nat * nat * bool) :=
  match where_label DE labels with
  | [] => None
  | i :: is' =>
      let iend := last (i :: is') 0%nat in
      Some (i, iend, negb (existsb (label_eqb LVL) (firstn (iend - i) (skipn i labels))))
  end.

(** openap/phase.py:337-358 [_get_cr], given the labels; the difference is the integer one of the source *)
Definition get_cr (labels : list label) : option (nat * nat) :=
  match get_cl labels, get_de labels with
  | Some (_, istart), Some (iend, _, _) =>
      if (Z.of_nat iend - Z.of_nat istart <? 200)%Z then None else Some (istart, iend)
  | _, _ => None
  end.

(** openap/phase.py:402-411: the returned dictionary *)
Record phase_idx : Type := mkIdx {
  i_TO : option nat; i_IC : option nat; i_CL : option nat; i_CR : option nat;
  i_DE : option nat; i_FA : option nat; i_LD : option nat; i_END : nat
}.

(** openap/phase.py:360-413 [flight_phase_indices] (default window of 60 s) *)
Definition flight_phase_indices (tr : list sample) : py phase_idx :=
  match phaselabel 60 tr with
  | inl e => inl e
  | inr labels =>
      let toic := get_to_ic tr in
      let cl := get_cl labels in
      let de := get_de labels in
      let fald := get_fa_ld tr in
      inr {|
        i_TO := option_map (fun x => fst (fst x)) toic;
        i_IC := option_map (fun x => snd (fst x)) toic;
        i_CL := match toic with Some x => Some (snd x) | None => option_map fst cl end;
        i_CR := option_map snd cl;
        i_DE := option_map (fun x => fst (fst x)) de;
        i_FA := match fald with Some x => Some (fst (fst x)) | None => option_map (fun x => snd (fst x)) de end;
        i_LD := option_map (fun x => snd (fst x)) fald;
        i_END := match fald with Some x => snd x | None => length tr end |}
  end.
