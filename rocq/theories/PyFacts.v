(** Lemmas about [res] and [dict]. *)
From Verif Require Import Py.

Lemma rbind_Ok {A B} (m : res A) (f : A -> res B) b :
  rbind m f = Ok b <-> exists a, m = Ok a /\ f a = Ok b.
Proof.
  destruct m as [a|e]; simpl; split.
  - eauto.
  - intros (a' & [= <-] & ?). done.
  - done.
  - intros (a' & ? & ?). done.
Qed.

Lemma rmap_Ok {A B} (f : A -> res B) l bs :
  rmap f l = Ok bs <-> Forall2 (fun a b => f a = Ok b) l bs.
Proof.
  revert bs. induction l as [|a l IH]; intros bs; simpl; split.
  - intros [= <-]. constructor.
  - intros H. inversion H. done.
  - rewrite rbind_Ok. intros (b & Hb & H). rewrite rbind_Ok in H.
    destruct H as (bs' & Hbs & [= <-]). constructor; [done|]. by apply IH.
  - intros H. inversion H as [|? b ? bs' Hb Hbs]; subst. rewrite Hb. simpl.
    apply IH in Hbs. by rewrite Hbs.
Qed.

Lemma rmap_all_Ok {A B} (f : A -> res B) (g : A -> B) l :
  Forall (fun a => f a = Ok (g a)) l -> rmap f l = Ok (map g l).
Proof.
  intros H. apply rmap_Ok. induction H; constructor; auto.
Qed.

Lemma rmap_app {A B} (f : A -> res B) l k :
  rmap f (l ++ k) = let* a := rmap f l in let* b := rmap f k in Ok (a ++ b).
Proof.
  induction l as [|x l IH]; simpl.
  - destruct (rmap f k); done.
  - destruct (f x); simpl; [|done]. rewrite IH.
    destruct (rmap f l); simpl; [|done]. destruct (rmap f k); done.
Qed.

Lemma rmap_length {A B} (f : A -> res B) l bs : rmap f l = Ok bs -> length bs = length l.
Proof. intros H%rmap_Ok. symmetry. by eapply Forall2_length. Qed.

Lemma rmap_ext_in {A B} (f g : A -> res B) l :
  (forall a, a ∈ l -> f a = g a) -> rmap f l = rmap g l.
Proof.
  induction l as [|a l IH]; intros H; simpl; [done|].
  rewrite H by left. destruct (g a); simpl; [|done]. rewrite IH; [done|]. intros b Hb. apply H. by right.
Qed.

Section dict.
  Context {K V : Type} `{EqDecision K}.
  Implicit Types d : dict K V.

  Lemma dget_dset d k v k' : dget (dset d k v) k' = if decide (k' = k) then Some v else dget d k'.
  Proof.
    induction d as [|[k0 v0] d IH]; csimpl.
    - destruct (decide (k' = k)); done.
    - destruct (decide (k = k0)) as [<-|Hne]; csimpl.
      + destruct (decide (k' = k)); done.
      + destruct (decide (k' = k0)) as [->|Hne'].
        * destruct (decide (k0 = k)); [by subst|done].
        * apply IH.
  Qed.
  Lemma dget_dset_eq d k v : dget (dset d k v) k = Some v.
  Proof. rewrite dget_dset. by rewrite decide_True. Qed.
  Lemma dget_dset_ne d k v k' : k' <> k -> dget (dset d k v) k' = dget d k'.
  Proof. intros. rewrite dget_dset. by rewrite decide_False. Qed.

  Lemma dget_Some_elem d k v : dget d k = Some v -> (k, v) ∈ d.
  Proof.
    induction d as [|[k0 v0] d IH]; csimpl; [done|].
    destruct (decide (k = k0)) as [->|Hne]; intros H.
    - injection H as ->. left.
    - right. auto.
  Qed.
  Lemma dget_None d k : dget d k = None <-> k ∉ dkeys d.
  Proof.
    unfold dkeys. induction d as [|[k0 v0] d IH]; csimpl.
    - split; [intros _; apply not_elem_of_nil|done].
    - rewrite not_elem_of_cons. destruct (decide (k = k0)) as [->|Hne].
      + split; [done|]. intros []. done.
      + rewrite IH. naive_solver.
  Qed.
  Lemma dget_is_Some d k : is_Some (dget d k) <-> k ∈ dkeys d.
  Proof.
    split.
    - intros [v H]. destruct (decide (k ∈ dkeys d)) as [|Hn]; [done|].
      apply dget_None in Hn. congruence.
    - intros H. destruct (dget d k) eqn:E; [eauto|]. apply dget_None in E. done.
  Qed.
  Lemma dget_elem_NoDup d k v : NoDup (dkeys d) -> (k, v) ∈ d -> dget d k = Some v.
  Proof.
    unfold dkeys. induction d as [|[k0 v0] d IH]; csimpl; intros Hnd Hin.
    - by apply elem_of_nil in Hin.
    - apply NoDup_cons in Hnd as [Hk0 Hnd]. apply elem_of_cons in Hin as [[= -> ->]|Hin].
      + by rewrite decide_True.
      + destruct (decide (k = k0)) as [->|Hne].
        * destruct Hk0. apply elem_of_list_fmap. exists (k0, v). done.
        * auto.
  Qed.
  Lemma dmem_true d k : dmem d k = true <-> k ∈ dkeys d.
  Proof. unfold dmem. apply bool_decide_eq_true. Qed.
  Lemma dmem_false d k : dmem d k = false <-> k ∉ dkeys d.
  Proof. unfold dmem. apply bool_decide_eq_false. Qed.
  Lemma dmem_dget d k : dmem d k = bool_decide (is_Some (dget d k)).
  Proof. unfold dmem. apply bool_decide_ext. by rewrite dget_is_Some. Qed.

  Lemma dkeys_dset d k v :
    dkeys (dset d k v) = if decide (k ∈ dkeys d) then dkeys d else dkeys d ++ [k].
  Proof.
    unfold dkeys. induction d as [|[k0 v0] d IH]; csimpl.
    - done.
    - destruct (decide (k = k0)) as [->|Hne]; csimpl.
      + rewrite decide_True by left. done.
      + rewrite IH. destruct (decide (k ∈ d.*1)) as [Hin|Hnin].
        * rewrite decide_True by (by right). done.
        * rewrite decide_False; [done|]. rewrite not_elem_of_cons. done.
  Qed.
  Lemma dset_new d k v : k ∉ dkeys d -> dset d k v = d ++ [(k, v)].
  Proof.
    unfold dkeys. induction d as [|[k0 v0] d IH]; csimpl; [done|].
    rewrite not_elem_of_cons. intros [Hne Hnin]. rewrite decide_False by done. by rewrite IH.
  Qed.
  Lemma NoDup_dset d k v : NoDup (dkeys d) -> NoDup (dkeys (dset d k v)).
  Proof.
    intros H. rewrite dkeys_dset. destruct (decide _); [done|].
    apply NoDup_app. split; [done|]. split.
    - intros x Hx Hx'. apply elem_of_list_singleton in Hx'. by subst.
    - apply NoDup_singleton.
  Qed.
  Lemma elem_of_dkeys_dset d k v k' : k' ∈ dkeys (dset d k v) <-> k' = k \/ k' ∈ dkeys d.
  Proof.
    rewrite dkeys_dset. destruct (decide _).
    - split; [by right|]. intros [->|?]; done.
    - rewrite elem_of_app, elem_of_list_singleton. tauto.
  Qed.

  Lemma dkeys_ddel d k : dkeys (ddel d k) = filter (fun x => x <> k) (dkeys d).
  Proof.
    unfold dkeys, ddel. induction d as [|[k0 v0] d IH]; [done|].
    rewrite fmap_cons, !filter_cons. csimpl. destruct (decide (k0 <> k)); csimpl.
    - by rewrite IH.
    - done.
  Qed.
  Lemma dget_ddel d k k' : dget (ddel d k) k' = if decide (k' = k) then None else dget d k'.
  Proof.
    unfold ddel. induction d as [|[k0 v0] d IH].
    - csimpl. by destruct (decide _).
    - rewrite filter_cons. csimpl. destruct (decide (k0 <> k)) as [Hne|He]; csimpl.
      + destruct (decide (k' = k0)) as [->|].
        * by rewrite decide_False.
        * apply IH.
      + apply dec_stable in He. subst. rewrite IH.
        destruct (decide (k' = k)); done.
  Qed.
  Lemma NoDup_ddel d k : NoDup (dkeys d) -> NoDup (dkeys (ddel d k)).
  Proof. rewrite dkeys_ddel. apply NoDup_filter. Qed.

  Lemma dget_app d1 d2 k :
    dget (d1 ++ d2) k = match dget d1 k with Some v => Some v | None => dget d2 k end.
  Proof.
    induction d1 as [|[k0 v0] d1 IH]; csimpl; [done|]. destruct (decide (k = k0)); done.
  Qed.
  Lemma dget_dmapv {W} (f : V -> W) d k : dget (dmapv f d) k = f <$> dget d k.
  Proof.
    unfold dmapv. induction d as [|[k0 v0] d IH]; csimpl; [done|]. destruct (decide (k = k0)); done.
  Qed.
  Lemma dkeys_dmapv {W} (f : V -> W) d : dkeys (dmapv f d) = dkeys d.
  Proof.
    unfold dmapv, dkeys. induction d as [|[k0 v0] d IH]; csimpl; [done|]. f_equal. apply IH.
  Qed.
  Lemma dget_dmapkv {W} (f : K -> V -> W) d k : dget (dmapkv f d) k = f k <$> dget d k.
  Proof.
    unfold dmapkv. induction d as [|[k0 v0] d IH]; csimpl; [done|].
    destruct (decide (k = k0)) as [->|]; done.
  Qed.
  Lemma dkeys_dmapkv {W} (f : K -> V -> W) d : dkeys (dmapkv f d) = dkeys d.
  Proof.
    unfold dmapkv, dkeys. induction d as [|[k0 v0] d IH]; csimpl; [done|]. f_equal. apply IH.
  Qed.
End dict.
