(** Facts about [BagWkt]. *)
From Verif Require Import Py BagXml BagWkt XmlSpec PyFacts BagXmlFacts.

Lemma before_irrefl p : ~ before p p.
Proof. intros H. by eapply before_asym. Qed.
Lemma sorted_same (l l' : list (list nat)) : StronglySorted before l -> StronglySorted before l' -> (forall p, p ∈ l <-> p ∈ l') -> l = l'.
Proof.
  intros S. revert l'. induction S as [|p l S IH F]; intros l' S' H.
  - destruct l' as [|q l']; [done|]. exfalso. apply (not_elem_of_nil q), H. left.
  - destruct S' as [|q l' S' F']; [exfalso; apply (not_elem_of_nil p), H; left|]. rewrite Forall_forall in F, F'.
    assert (p = q) as ->.
    { destruct (proj1 (elem_of_cons l' p q) (proj1 (H p) (elem_of_list_here _ _))) as [|Hp]; [done|].
      destruct (proj1 (elem_of_cons l q p) (proj2 (H q) (elem_of_list_here _ _))) as [|Hq]; [done|]. exfalso. by eapply before_asym; [apply F|apply F']. }
    f_equal. apply IH; [done|]. intros x. specialize (H x). rewrite !elem_of_cons in H. split; intros Hx.
    + destruct (proj1 H (or_intror Hx)) as [->|?]; [|done]. exfalso. by eapply before_irrefl, F.
    + destruct (proj2 H (or_intror Hx)) as [->|?]; [|done]. exfalso. by eapply before_irrefl, F'.
Qed.
(** Setting the times does not change which elements have tags that do not lead to the times, nor their texts. *)
Lemma temporal_other s e t path : ~ path `prefix_of` begin_path -> ~ path `prefix_of` end_path ->
  find_all path (set_temporal s e t) = find_all path t /\
  forall p, p ∈ find_all path t -> (n ← x_at p (set_temporal s e t); x_text n) = (n ← x_at p t; x_text n).
Proof.
  intros N1 N2. destruct (temporal_shape t) as (t3 & b & f & E & G & Fb & Ff & _).
  assert (Hp : forall q, q `prefix_of` b \/ q `prefix_of` f -> tags_to q t3 <> Some path).
  { intros q [Hq|Hq] HT; [destruct (prefix_tags b q t3 _ Hq (proj1 Fb)) as (h & Hh & Hpre)|destruct (prefix_tags f q t3 _ Hq (proj1 Ff)) as (h & Hh & Hpre)]; rewrite HT in Hh; injection Hh as <-; done. }
  assert (HF : forall p, p ∈ find_all path (set_temporal s e t) <-> p ∈ find_all path t).
  { intros p. rewrite !elem_of_find, E, shape_tags. symmetry. by apply (grown_tags _ _ _ path G). }
  split; [apply sorted_same; [apply find_sorted..|done]|]. intros p Hin%elem_of_find.
  destruct (temporal_written s e t) as (b' & f' & _ & _ & Hb & _ & _ & Hf & _). destruct (tags_at _ _ _ Hin) as [n Hn].
  destruct (proj1 (temporal_rest s e t b' f' Hb Hf) p n Hn) as (n' & Hn' & _ & _ & HT). rewrite Hn, Hn'. cbn. apply HT; intros ->.
  - apply elem_of_find, HF, elem_of_find in Hin. destruct Hb as [Hb _]. rewrite Hb in Hin. injection Hin as <-. apply N1. done.
  - apply elem_of_find, HF, elem_of_find in Hin. destruct Hf as [Hf _]. rewrite Hf in Hin. injection Hin as <-. apply N2. done.
Qed.
Lemma first_vertical_spec v l w : first_vertical v l = Ok w -> exists l1 l2, l = l1 ++ w :: l2 /\ v w = Ok true /\ Forall (fun s => v s = Ok false) l1.
Proof.
  induction l as [|s l IH]; cbn; [done|]. intros (b & Hb & H)%rbind_Ok. destruct b.
  - injection H as ->. exists [], l. by repeat split.
  - destruct (IH H) as (l1 & l2 & -> & H1 & H2). exists (s :: l1), l2. split; [done|]. split; [done|]. by constructor.
Qed.
Lemma first_vertical_skip v l1 w l2 : Forall (fun s => v s = Ok false) l1 -> v w = Ok true -> first_vertical v (l1 ++ w :: l2) = Ok w.
Proof. intros H Hw. induction H as [|s l1 Hs _ IH]; cbn; [by rewrite Hw|]. rewrite Hs. exact IH. Qed.
Lemma none_vertical v l : Forall (fun s => v s = Ok false) l -> first_vertical v l = Raise ValueError.
Proof. induction 1 as [|s l Hs _ IH]; cbn; [done|]. rewrite Hs. exact IH. Qed.
Lemma sorted_nodup (l : list (list nat)) : StronglySorted before l -> NoDup l.
Proof. induction 1 as [|p l S IH F]; constructor; [|done]. intros Hp. rewrite Forall_forall in F. by eapply before_irrefl, F. Qed.
Lemma find_nodup path t : NoDup (find_all path t).
Proof. apply sorted_nodup, find_sorted. Qed.
Lemma find_pair (l : list (list nat)) p q : StronglySorted before l -> p <> q -> (forall r, r ∈ l <-> r = p \/ r = q) -> l = [p; q] \/ l = [q; p].
Proof.
  intros S Hne H. assert (HP : l ≡ₚ [p; q]).
  { apply NoDup_Permutation; [by apply sorted_nodup|apply NoDup_cons; split; [by rewrite elem_of_list_singleton|apply NoDup_singleton]|]. intros r. rewrite H, !elem_of_cons. split; [tauto|]. intros [?|[?|?%not_elem_of_nil]]; tauto. }
  symmetry in HP. apply Permutation_length_2_inv in HP. destruct HP as [HP|HP]; rewrite HP; auto.
Qed.
