(** * Model of openap/extra/statistics.py [fit]

    The distributions of scipy are parameters: fitting, the Kolmogorov-Smirnov statistic, the interval and the density are
    arbitrary functions, the first three of which may raise.  Numbers are exact reals; NaN and infinities may occur in the input data. *)
From Coq Require Import String Reals List Bool.
From Verif Require Import Num Py.
Import ListNotations.
Open Scope R_scope.

(** [isinstance] cases of the argument [models] (openap/extra/statistics.py:10-14) *)
Inductive models_arg : Type := MStr (m : string) | MList (l : list string) | MOther.
(** exceptions: the kinds of [Py.v] and RuntimeError (openap/extra/statistics.py:14) *)
Inductive st_err : Type := RuntimeError | Raised (e : pyerr).

(** openap/extra/statistics.py:17 [data[np.isfinite(data)]] *)
Fixpoint finite_only (data : list ext) : list R :=
  match data with [] => [] | Fin x :: t => x :: finite_only t | _ :: t => finite_only t end.
(** sorting inside [np.percentile] (openap/extra/statistics.py:18-19) *)
Fixpoint insert_r (x : R) (l : list R) : list R :=
  match l with [] => [x] | y :: t => if Rle_dec x y then x :: l else y :: insert_r x t end.
(** sorting inside [np.percentile] (openap/extra/statistics.py:18-19) *)
Fixpoint sort_r (l : list R) : list R := match l with [] => [] | x :: t => insert_r x (sort_r t) end.
(** [np.percentile(data, 100 q)], linear interpolation between neighbours (openap/extra/statistics.py:18-19);
    an empty array raises *)
Definition percentile (data : list R) (q : R) : st_err + R :=
  match sort_r data with
  | [] => inl (Raised IndexError)
  | s0 :: _ =>
      let s := sort_r data in
      let h := INR (length s - 1) * q in
      let i := Z.to_nat (Int_part h) in
      let lo := nth i s s0 in
      let hi := nth (i + 1) s lo in
      inr (lo + (hi - lo) * (h - INR i))
  end.
(** openap/extra/statistics.py:18 [data[data > np.percentile(data, 0.025)]] *)
Definition trim_low (data : list R) : st_err + list R :=
  match percentile data 0.00025 with
  | inl e => inl e
  | inr p => inr (filter (fun x => if Rlt_dec p x then true else false) data)
  end.
(** openap/extra/statistics.py:19 [data[data < np.percentile(data, 99.975)]] *)
Definition trim_high (data : list R) : st_err + list R :=
  match percentile data 0.99975 with
  | inl e => inl e
  | inr p => inr (filter (fun x => if Rlt_dec x p then true else false) data)
  end.
(** openap/extra/statistics.py:16-19: the data that are fitted *)
Definition trimmed (data : list ext) : st_err + list R :=
  match trim_low (finite_only data) with inl e => inl e | inr d => trim_high d end.
(** Python [min] and [max] of an array (openap/extra/statistics.py:25-26) *)
Definition py_min (l : list R) : st_err + R :=
  match l with [] => inl (Raised ValueError) | x :: t => inr (fold_left Rmin t x) end.
(** openap/extra/statistics.py:26 *)
Definition py_max (l : list R) : st_err + R :=
  match l with [] => inl (Raised ValueError) | x :: t => inr (fold_left Rmax t x) end.
(** openap/extra/statistics.py:22 [data[0:-1:1]] *)
Definition train_of (data : list R) : list R := firstn (length data - 1) data.
(** openap/extra/statistics.py:22 [data[1:-1:1]] *)
Definition test_of (data : list R) : list R := skipn 1 (firstn (length data - 1) data).
(** [np.linspace(a, b, 1000)] (openap/extra/statistics.py:56) *)
Definition linspace1000 (a b : R) : list R := map (fun i => a + INR i * ((b - a) / 999)) (seq 0 1000).

(** an exception ends the call (all of openap/extra/statistics.py:9-66) *)
Definition bind_st {A B} (m : st_err + A) (k : A -> st_err + B) : st_err + B :=
  match m with inl e => inl e | inr a => k a end.

Section Fit.
(** scipy: known names, fitting with optional pinned location and scale, KS statistic, interval and density
    (openap/extra/statistics.py:32-57) *)
Context (P : Type) (known : string -> bool)
  (dist_fit : string -> list R -> option R -> option R -> st_err + P)
  (kstest : list R -> string -> P -> st_err + R)
  (dist_interval : string -> R -> P -> st_err + (R * R))
  (dist_pdf : string -> R -> P -> R).
(** entry of the result (openap/extra/statistics.py:58-62) *)
Record fitted : Type := mkFitted { f_param : P; f_pdfx : list R; f_pdfy : list R; f_error : R }.
(** openap/extra/statistics.py:33-38 and 44-49 *)
Definition fit_call (model : string) (data : list R) (dmin dscale : R) : st_err + P :=
  if String.eqb model "norm" then dist_fit model data None None
  else if String.eqb model "gamma" then dist_fit model data (Some dmin) None
  else dist_fit model data (Some dmin) (Some dscale).
(** openap/extra/statistics.py:31-62: one round of the loop *)
Definition fit_one (data : list R) (dmin dscale : R) (model : string) : st_err + fitted :=
  if known model then
    bind_st (fit_call model (train_of data) dmin dscale) (fun param_train =>
    bind_st (kstest (test_of data) model param_train) (fun error =>
    bind_st (fit_call model data dmin dscale) (fun param =>
    bind_st (dist_interval model 0.999 param) (fun ci =>
    let xmin := fst ci - dscale * 0.05 in
    let xmax := snd ci + dscale * 0.05 in
    let pdfx := linspace1000 xmin xmax in
    let pdfy := map (fun x => dist_pdf model x param) pdfx in
    inr (mkFitted param pdfx pdfy error)))))
  else inl (Raised AttributeError).
(** [result[model] = ...]: a dictionary keeps the place of a key that is written again
    (openap/extra/statistics.py:58) *)
Fixpoint dict_set {A} (k : string) (v : A) (d : list (string * A)) : list (string * A) :=
  match d with
  | [] => [(k, v)]
  | (k', v') :: t => if String.eqb k k' then (k, v) :: t else (k', v') :: dict_set k v t
  end.
(** openap/extra/statistics.py:30-62: the loop over the models *)
Fixpoint fit_loop (data : list R) (dmin dscale : R) (ms : list string) (acc : list (string * fitted)) : st_err + list (string * fitted) :=
  match ms with
  | [] => inr acc
  | m :: t => match fit_one data dmin dscale m with inl e => inl e | inr f => fit_loop data dmin dscale t (dict_set m f acc) end
  end.
(** openap/extra/statistics.py:9-66 [fit] *)
Definition fit (data : list ext) (models : models_arg) : st_err + list (string * fitted) :=
  let go ms :=
    match trimmed data with
    | inl e => inl e
    | inr d =>
        match py_min d, py_max d with
        | inr mn, inr mx =>
            let dmin := mn - 1e-8 in
            let dmax := mx + 1e-8 in
            let dscale := dmax - dmin in
            fit_loop d dmin dscale ms []
        | inl e, _ => inl e
        | _, inl e => inl e
        end
    end in
  match models with MStr m => go [m] | MList l => go l | MOther => inl RuntimeError end.
(** [d[k]] of a dictionary (used to read the result, openap/extra/statistics.py:84) *)
Fixpoint dict_get {A} (k : string) (d : list (string * A)) : option A :=
  match d with [] => None | (k', v) :: t => if String.eqb k k' then Some v else dict_get k t end.
End Fit.
