(** Python values used throughout the model: exceptions, the result of a call that may
    raise, and insertion-ordered dictionaries. *)
From Coq Require Export ZArith QArith Qround Qabs Lia.
From stdpp Require Export base decidable option list list_numbers strings sorting.

(** Exceptions raised by the code or by the numpy/python primitives it calls. The text of
    the message is not modelled. *)
Inductive exn :=
  | ValueError | TypeError | IndexError | KeyError | AttributeError | AssertionError
  | EnvironmentError | NotImplementedError | FileExistsError | FileNotFoundError | PermissionError.

Global Instance exn_eq_dec : EqDecision exn.
Proof. solve_decision. Defined.

(** Outcome of a call. *)
Inductive res (A : Type) :=
  | Ok (a : A)
  | Raise (e : exn).
Arguments Ok {A} a.
Arguments Raise {A} e.

Definition rbind {A B} (m : res A) (f : A -> res B) : res B :=
  match m with Ok a => f a | Raise e => Raise e end.

Notation "'let*' x ':=' m 'in' f" := (rbind m (fun x => f))
  (at level 200, x pattern, m at level 100, f at level 200, right associativity).

(** Evaluate left to right, stop at the first exception. *)
Fixpoint rmap {A B} (f : A -> res B) (l : list A) : res (list B) :=
  match l with
  | [] => Ok []
  | a :: r => let* b := f a in let* bs := rmap f r in Ok (b :: bs)
  end.

(** [assert c, raising e otherwise] *)
Definition rguard (c : bool) (e : exn) : res unit := if c then Ok tt else Raise e.

Definition rofopt {A} (o : option A) (e : exn) : res A :=
  match o with Some a => Ok a | None => Raise e end.

(** Python [dict]: association list in insertion order. Assigning to an existing key keeps its
    position, assigning to a new key appends. *)
Notation dict K V := (list (K * V)).

Section dict.
  Context {K V : Type} `{EqDecision K}.

  Fixpoint dget (d : dict K V) (k : K) : option V :=
    match d with
    | [] => None
    | (k', v) :: r => if decide (k = k') then Some v else dget r k
    end.

  Fixpoint dset (d : dict K V) (k : K) (v : V) : dict K V :=
    match d with
    | [] => [(k, v)]
    | (k', v') :: r => if decide (k = k') then (k', v) :: r else (k', v') :: dset r k v
    end.

  (** [d.pop(k)] for a key that is present. *)
  Definition ddel (d : dict K V) (k : K) : dict K V :=
    filter (fun kv => kv.1 <> k) d.

  Definition dkeys (d : dict K V) : list K := d.*1.
  Definition dmem (d : dict K V) (k : K) : bool := bool_decide (k ∈ dkeys d).
  Definition dmapv {W} (f : V -> W) (d : dict K V) : dict K W :=
    map (fun kv => (kv.1, f kv.2)) d.
  (** [for k in d: d[k] = f(k, d[k])] *)
  Definition dmapkv {W} (f : K -> V -> W) (d : dict K V) : dict K W :=
    map (fun kv => (kv.1, f kv.1 kv.2)) d.
End dict.
