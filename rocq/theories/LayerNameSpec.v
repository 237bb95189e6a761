(** The layers that gridding should give. *)
From Verif Require Import Py.

(** In the order in which they are listed: for backscatter (or depths), for a grid that was read back from disk (or not), for the
    algorithm, for soundings with vertical and horizontal uncertainties. *)
Definition given_layers (backscatter stored : bool) (alg : string) (tvu thu : bool) : list string :=
  (if backscatter then "intensity" else "depth") :: "density" ::
  if String.eqb alg "cube"
  then if stored then ["total_uncertainty"; "hypothesis_count"; "hypothesis_ratio"] else ["hypothesis_count"; "total_uncertainty"; "hypothesis_ratio"]
  else (if tvu then ["vertical_uncertainty"] else []) ++ (if thu then ["horizontal_uncertainty"] else []).
