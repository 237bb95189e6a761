(** grids.py:89-103 and 119-120 in IEEE binary64 arithmetic. A float is a real number of the binary64 format,
    and every operation rounds the exact result to nearest, ties to even. Simplification: the exponent has no
    upper bound, so results beyond the largest float, which are infinite in the code, are not modelled; the
    sign of zero is not either. *)
From Coq Require Import ZArith Reals.
From Flocq Require Import Core.
Open Scope R_scope.

Definition fexp64 : Z -> Z := FLT_exp (-1074) 53.
Definition is_float (x : R) : Prop := generic_format radix2 fexp64 x.
Definition fl (x : R) : R := round radix2 fexp64 ZnearestE x.
(** np.floor and np.ceil: integers, without rounding *)
Definition fl_floor (x : R) : R := IZR (Zfloor x).
Definition fl_ceil (x : R) : R := IZR (Zceil x).

(** grids.py:94, 96 *)
Definition float_lo (x origin ts : R) : R := fl (fl_floor (fl (fl (x - origin) / ts)) * ts).
(** grids.py:95, 97 *)
Definition float_hi0 (x origin ts : R) : R := fl (fl_ceil (fl (fl (x - origin) / ts)) * ts).
(** grids.py:98-101 *)
Definition float_hi (x origin ts : R) : R :=
  let h := float_hi0 x origin ts in if Req_EM_T h x then fl (h + ts) else h.
(** grids.py:119-120: numpy's arange computes the second value, the difference to the first one, and then the
    first value plus multiples of the difference; its length is the rounded-up quotient. *)
Definition float_arange (start ts : R) (i : Z) : R := fl (start + fl (IZR i * fl (fl (start + ts) - start))).
Definition float_arange_len (start stop ts : R) : Z := Zceil (fl (fl (stop - start) / ts)).
