(** * Model of openap/contrail.py [load_olr]

    The file is what xarray read from it: variables and coordinates by name.  A variable has the dimensions time,
    latitude and longitude; its value at a grid point is given by the labels of the point, so labels are unique.
    Times are numbers.  xarray's [interp] with plain numbers and arrays interpolates along each dimension separately and
    returns the grid spanned by the arrays; outside the grid it returns NaN; it sorts the labels first. *)
From Coq Require Import String Reals List Bool.
From Verif Require Import Num Py Stats.
Import ListNotations.
Open Scope R_scope.

(** what [xr.open_dataset] returns (openap/contrail.py:407) *)
Record dataset : Type := mkDs {
  ds_vars : list (string * (R -> R -> R -> ext));     (* value at time, latitude, longitude *)
  ds_coords : list (string * list R)
}.
(** a query along one dimension: a number or an array (openap/contrail.py:388-391) *)
Inductive query : Type := One (x : R) | Many (l : list R).
(** openap/contrail.py:437 *)
Definition q_points (q : query) : list R := match q with One x => [x] | Many l => l end.
(** the dimension disappears for a number (openap/contrail.py:436-439) *)
Definition q_dim (q : query) : list nat := match q with One _ => [] | Many l => [length l] end.

(** the first name that occurs (openap/contrail.py:411-414, 424-427, 430-433) *)
Fixpoint first_name {A} (names : list string) (l : list (string * A)) : option A :=
  match names with
  | [] => None
  | n :: t => match dict_get n l with Some a => Some a | None => first_name t l end
  end.

(** the neighbours of x among sorted labels (xarray [interp], openap/contrail.py:436-439) *)
Fixpoint segment (s : list R) (x : R) : option (R * R) :=
  match s with
  | [] => None
  | [a] => if Req_EM_T x a then Some (a, a) else None
  | a :: (b :: _) as t => if Rle_dec a x then if Rle_dec x b then Some (a, b) else segment t x else None
  end.
(** linear interpolation along one dimension (xarray [interp], openap/contrail.py:436-439) *)
Definition interp_along (labels : list R) (f : R -> ext) (x : R) : ext :=
  match segment (sort_r labels) x with
  | None => NaN
  | Some (a, b) =>
      if Req_EM_T a b then f a
      else eadd (f a) (emul (esub (f b) (f a)) (Fin ((x - a) / (b - a))))
  end.
(** openap/contrail.py:378-441 [load_olr].  A dimension without a coordinate name raises in xarray ([None] is no dimension). *)
Definition load_olr (ds : dataset) (lat lon time : query) : py (list nat * list ext) :=
  match first_name ["olr"; "OLR"; "olr_avg"; "toa_lw_all_daily"]%string (ds_vars ds) with
  | None => inl ValueError
  | Some v =>
      match first_name ["lat"; "latitude"]%string (ds_coords ds),
            first_name ["lon"; "longitude"]%string (ds_coords ds),
            dict_get "time"%string (ds_coords ds) with
      | Some glat, Some glon, Some gtime =>
          inr (q_dim time ++ q_dim lat ++ q_dim lon,
               flat_map (fun t => flat_map (fun la => map (fun lo =>
                 interp_along gtime (fun t' => interp_along glat (fun la' => interp_along glon (fun lo' => v t' la' lo') lo) la) t)
                 (q_points lon)) (q_points lat)) (q_points time))
      | _, _, _ => inl ValueError
      end
  end.
