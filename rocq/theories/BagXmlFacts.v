(** Facts about [BagXml]. *)
From Coq Require Import Ascii.
From Verif Require Import Py BagXml XmlSpec.

Lemma tags_at p t g : tags_to p t = Some g -> exists n, x_at p t = Some n.
Proof.
  revert t g. induction p as [|i r IH]; intros t g; cbn; [eauto|].
  destruct (x_kids t !! i) as [k|] eqn:Ek; cbn; [|done].
  destruct (tags_to r k) as [g'|] eqn:Eg; cbn; [|done]. intros _. eauto.
Qed.
Lemma at_tags p t n : x_at p t = Some n -> exists g, tags_to p t = Some g.
Proof.
  revert t. induction p as [|i r IH]; intros t; cbn; [eauto|].
  destruct (x_kids t !! i) as [k|] eqn:Ek; cbn; [|done].
  intros [g Hg]%IH. rewrite Hg. cbn. eauto.
Qed.
Lemma tags_length p t g : tags_to p t = Some g -> length g = length p.
Proof.
  revert t g. induction p as [|i r IH]; intros t g; cbn; [by intros [= <-]|].
  destruct (x_kids t !! i) as [k|] eqn:Ek; cbn; [|done].
  destruct (tags_to r k) as [g'|] eqn:Eg; cbn; [|done]. intros [= <-]. cbn. f_equal. eauto.
Qed.
Lemma tags_app p q t n g h :
  x_at p t = Some n -> tags_to p t = Some g -> tags_to q n = Some h -> tags_to (p ++ q) t = Some (g ++ h).
Proof.
  revert t g. induction p as [|i r IH]; intros t g; cbn.
  { intros [= <-] [= <-]. done. }
  destruct (x_kids t !! i) as [k|] eqn:Ek; cbn; [|done].
  intros Hn. destruct (tags_to r k) as [g'|] eqn:Eg; cbn; [|done].
  intros [= <-] Hq. rewrite (IH _ _ Hn Eg Hq). done.
Qed.
Lemma x_at_app p q t : x_at (p ++ q) t = (n ← x_at p t; x_at q n).
Proof. revert t. induction p as [|i r IH]; intros t; cbn; [done|]. destruct (x_kids t !! i); cbn; [apply IH|done]. Qed.

(** ** Finding elements *)
Lemma elem_of_find path t p : p ∈ find_all path t <-> tags_to p t = Some path.
Proof.
  revert t p. induction path as [|g rest IH]; intros t p; cbn.
  - rewrite elem_of_list_singleton. split; [intros ->; done|].
    intros H. apply tags_length in H. by destruct p.
  - rewrite elem_of_list_In, in_concat. setoid_rewrite <- elem_of_list_In. split.
    + intros (l & Hl & Hp). apply elem_of_lookup_imap in Hl as (i & k & -> & Hk).
      case_bool_decide as Eg; [|by apply elem_of_nil in Hp].
      apply elem_of_list_In, in_map_iff in Hp as (r & <- & Hr). apply elem_of_list_In, IH in Hr.
      cbn. rewrite Hk. cbn. rewrite Hr. cbn. by rewrite Eg.
    + destruct p as [|i r]; cbn; [done|]. destruct (x_kids t !! i) as [k|] eqn:Ek; cbn; [|done].
      destruct (tags_to r k) as [g'|] eqn:Et; cbn; [|done]. intros [= Hg ->].
      eexists. split; [apply elem_of_lookup_imap; exists i, k; split; [reflexivity|done]|].
      rewrite bool_decide_true by done. apply elem_of_list_In, in_map, elem_of_list_In. by apply IH.
Qed.
Lemma find_sorted path t : StronglySorted before (find_all path t).
Proof.
  revert t. induction path as [|g rest IH]; intros t; cbn; [repeat constructor|].
  assert (G : forall (n : nat) l, (Forall (fun p => exists i r, p = i :: r /\ n <= i)
      (concat (imap (fun i k => if bool_decide (x_tag k = g) then map (cons (n + i)) (find_all rest k) else []) l)))
    /\ StronglySorted before
      (concat (imap (fun i k => if bool_decide (x_tag k = g) then map (cons (n + i)) (find_all rest k) else []) l))).
  { intros n l. revert n. induction l as [|k l IHl]; intros n; cbn; [split; constructor|].
    destruct (IHl (S n)) as [F S].
    rewrite (imap_ext _ (fun i k => if bool_decide (x_tag k = g) then map (cons (Datatypes.S n + i)) (find_all rest k) else [])).
    2:{ intros i k' _. cbn. by rewrite Nat.add_succ_r. }
    rewrite Nat.add_0_r. case_bool_decide; cbn.
    2:{ split; [|done]. eapply Forall_impl; [exact F|]. intros p (i & r & -> & ?). exists i, r. split; [done|lia]. }
    split.
    - apply Forall_app. split.
      + apply Forall_forall. intros p Hp. apply elem_of_list_In, in_map_iff in Hp as (r & <- & _). exists n, r. split; [done|lia].
      + eapply Forall_impl; [exact F|]. intros p (i & r & -> & ?). exists i, r. split; [done|lia].
    - specialize (IH k). clear IHl. induction IH as [|r lr Hr IHr Fr]; cbn; [done|].
      constructor; [done|]. apply Forall_app. split.
      + apply Forall_forall. intros p Hp. apply elem_of_list_In, in_map_iff in Hp as (r' & <- & Hr'). cbn. right. split; [done|].
        apply elem_of_list_In in Hr'. rewrite Forall_forall in Fr. by apply Fr.
      + eapply Forall_impl; [exact F|]. intros p (i & r' & -> & ?). cbn. left. lia. }
  apply (G 0 (x_kids t)).
Qed.
Lemma find_cases path t :
  match find_all path t with
  | [] => forall q, tags_to q t <> Some path
  | p :: _ => first_with path t p
  end.
Proof.
  pose proof (find_sorted path t) as S. pose proof (elem_of_find path t) as E.
  destruct (find_all path t) as [|p l].
  - intros q H. apply E in H. by apply elem_of_nil in H.
  - split; [apply E; left|]. intros q Hq. apply E in Hq. apply elem_of_cons in Hq as [->|Hq]; [by left|].
    right. inversion S as [|? ? _ F]; subst. rewrite Forall_forall in F. by apply F.
Qed.
Lemma before_asym p q : before p q -> before q p -> False.
Proof. revert q. induction p as [|i p IH]; intros [|j q]; cbn; try done. intros [?|[-> ?]] [?|[? ?]]; try lia. by eapply IH. Qed.
Lemma first_unique path t p q : first_with path t p -> first_with path t q -> p = q.
Proof.
  intros [Hp Fp] [Hq Fq]. destruct (Fp q Hq) as [|B1]; [done|]. destruct (Fq p Hp) as [|B2]; [done|].
  exfalso. by eapply before_asym.
Qed.
Lemma first_ext path t t' p :
  (forall q, tags_to q t = Some path <-> tags_to q t' = Some path) -> first_with path t p -> first_with path t' p.
Proof. intros H [Hp F]. split; [by apply H|]. intros q Hq. apply F. by apply H. Qed.

(** ** Setting a text *)
Lemma tags_text s q p t : tags_to q (x_alter (with_text s) p t) = tags_to q t.
Proof.
  revert q t. induction p as [|i p IH]; intros q t; [by destruct q|].
  destruct q as [|j q]; [done|]. cbn. destruct (decide (i = j)) as [->|Hij].
  - rewrite list_lookup_alter. destruct (x_kids t !! j) as [k|] eqn:Ek; cbn; [|done].
    rewrite IH. f_equal. by destruct p.
  - by rewrite list_lookup_alter_ne.
Qed.
Lemma at_text_same s p t n : x_at p t = Some n -> x_at p (x_alter (with_text s) p t) = Some (with_text s n).
Proof.
  revert t. induction p as [|i p IH]; intros t; cbn; [by intros [= ->]|].
  rewrite list_lookup_alter. destruct (x_kids t !! i) as [k|]; cbn; [apply IH|done].
Qed.
Lemma at_text_other s p q t n :
  x_at q t = Some n -> q <> p ->
  exists n', x_at q (x_alter (with_text s) p t) = Some n' /\ x_tag n' = x_tag n /\ x_attrs n' = x_attrs n /\ x_text n' = x_text n.
Proof.
  revert q t. induction p as [|i p IH]; intros q t.
  - destruct q as [|j q]; [done|]. cbn. intros H _. eauto.
  - destruct q as [|j q]; cbn; [intros [= ->] _; eexists; split; [reflexivity|done]|].
    intros Hn Hq. destruct (decide (i = j)) as [->|Hij].
    + rewrite list_lookup_alter. destruct (x_kids t !! j) as [k|]; cbn in *; [|done].
      apply (IH q k Hn). intros ->. by apply Hq.
    + rewrite list_lookup_alter_ne by done. eauto.
Qed.
Lemma at_text_none s p q t : x_at q t = None -> x_at q (x_alter (with_text s) p t) = None.
Proof.
  intros H. destruct (x_at q (x_alter (with_text s) p t)) as [n|] eqn:E; [|done].
  apply at_tags in E as [g Hg]. rewrite tags_text in Hg. apply tags_at in Hg as [n' Hn']. congruence.
Qed.
Lemma text_text s s' p t : x_alter (with_text s) p (x_alter (with_text s') p t) = x_alter (with_text s) p t.
Proof.
  revert t. induction p as [|i p IH]; intros t; [done|]. cbn. unfold with_kids. cbn. f_equal.
  rewrite <- list_alter_compose. apply list_alter_ext; [|done]. intros k _. apply IH.
Qed.
Lemma text_comm s s' p q t :
  p <> q -> x_alter (with_text s) p (x_alter (with_text s') q t) = x_alter (with_text s') q (x_alter (with_text s) p t).
Proof.
  revert q t. induction p as [|i p IH]; intros [|j q] t Hpq; [done..|]. cbn. unfold with_kids. cbn. f_equal.
  destruct (decide (i = j)) as [->|Hij].
  - rewrite <- !list_alter_compose. apply list_alter_ext; [|done]. intros k _. cbn. apply IH. congruence.
  - by apply list_alter_commute.
Qed.

(** ** Adding elements *)
(** The attributes of an element that was made here: see [new_elem]. *)
Definition fresh (n : xml) : Prop :=
  x_text n = None /\ (x_tag n = gml +:+ "TimePeriod" -> x_attrs n = [(gml +:+ "id", "temporal-extent-1"); (xsi +:+ "type", "gml:TimePeriodType")]) /\
  (x_tag n <> gml +:+ "TimePeriod" -> x_attrs n = []).
Lemma fresh_new g : fresh (new_elem g).
Proof. split; [done|]. cbn. split; intros H; [by rewrite bool_decide_eq_true_2|by rewrite bool_decide_eq_false_2]. Qed.
Lemma fresh_same n n' : x_tag n' = x_tag n -> x_attrs n' = x_attrs n -> x_text n' = x_text n -> fresh n -> fresh n'.
Proof. unfold fresh. by intros -> -> ->. Qed.
(** [t'] is [t] with elements added at positions that satisfy [P]. *)
Definition grown (P : list nat -> Prop) (t t' : xml) : Prop :=
  (forall q n, x_at q t = Some n ->
     exists n', x_at q t' = Some n' /\ x_tag n' = x_tag n /\ x_attrs n' = x_attrs n /\ x_text n' = x_text n) /\
  (forall q g, tags_to q t = Some g -> tags_to q t' = Some g) /\
  (forall q n', x_at q t = None -> x_at q t' = Some n' -> fresh n' /\ P q).
Lemma grown_refl P t : grown P t t.
Proof. split; [eauto|split; [done|]]. intros q n' H1 H2. congruence. Qed.
Lemma grown_weaken (P Q : list nat -> Prop) t t' : (forall g, P g -> Q g) -> grown P t t' -> grown Q t t'.
Proof. intros PQ (G1 & G2 & G3). split; [done|split; [done|]]. intros q n' H1 H2. destruct (G3 q n' H1 H2). eauto. Qed.
Lemma grown_trans P t t1 t2 : grown P t t1 -> grown P t1 t2 -> grown P t t2.
Proof.
  intros (A1 & A2 & A3) (B1 & B2 & B3). split; [|split; [auto|]].
  - intros q n H. destruct (A1 q n H) as (n1 & H1 & E1 & E2 & E3). destruct (B1 q n1 H1) as (n2 & H2 & F1 & F2 & F3).
    exists n2. repeat split; congruence.
  - intros q n2 H0 H2. destruct (x_at q t1) as [n1|] eqn:E1.
    + destruct (A3 q n1 H0 E1) as (T & HP). destruct (B1 q n1 E1) as (n2' & H2' & F1 & F2 & F3).
      assert (n2' = n2) as -> by congruence. split; [by eapply fresh_same|]. eauto.
    + eauto.
Qed.
Lemma grown_tags P t t' path :
  grown P t t' -> (forall q, P q -> tags_to q t' <> Some path) -> forall q, tags_to q t = Some path <-> tags_to q t' = Some path.
Proof.
  intros (G1 & G2 & G3) HP q. split; [apply G2|]. intros H.
  destruct (x_at q t) as [n|] eqn:E.
  - apply at_tags in E as [g Hg]. pose proof (G2 _ _ Hg). congruence.
  - destruct (tags_at _ _ _ H) as [n' Hn']. destruct (G3 q n' E Hn') as (_ & HPq). by apply HP in HPq.
Qed.
(** A child replaced by a grown one. *)
Lemma grown_kid (P : list nat -> Prop) t i k k' :
  x_kids t !! i = Some k -> x_tag k' = x_tag k -> x_attrs k' = x_attrs k -> x_text k' = x_text k ->
  grown P k k' -> grown (fun q => exists r, q = i :: r /\ P r) t (with_kids t (<[i := k']> (x_kids t))).
Proof.
  intros Hk E1 E2 E3 (G1 & G2 & G3). pose proof (lookup_lt_Some _ _ _ Hk) as Hlt. split; [|split].
  - intros [|j q] n; cbn; [intros [= ->]; eexists; split; [reflexivity|done]|].
    destruct (decide (i = j)) as [->|Hij].
    + rewrite list_lookup_insert by done. rewrite Hk. cbn. apply G1.
    + rewrite list_lookup_insert_ne by done. eauto.
  - intros [|j q] g; cbn; [done|]. destruct (decide (i = j)) as [->|Hij].
    + rewrite list_lookup_insert by done. rewrite Hk. cbn. destruct (tags_to q k) as [g'|] eqn:Eg; cbn; [|done].
      rewrite (G2 _ _ Eg). cbn. by rewrite E1.
    + by rewrite list_lookup_insert_ne.
  - intros [|j q] n'; cbn; [done|]. destruct (decide (i = j)) as [->|Hij].
    + rewrite list_lookup_insert by done. rewrite Hk. cbn. intros H0 H1. destruct (G3 q n' H0 H1) as (T & HP). eauto.
    + rewrite list_lookup_insert_ne by done. congruence.
Qed.
(** A child added at the end. *)
Lemma grown_new (P : list nat -> Prop) t k :
  (forall q n, x_at q k = Some n -> fresh n /\ P q) ->
  grown (fun q => exists r, q = length (x_kids t) :: r /\ P r) t (add_kid t k).
Proof.
  intros HQ. split; [|split].
  - intros [|j q] n; cbn; [intros [= ->]; eexists; split; [reflexivity|done]|].
    destruct (x_kids t !! j) as [k0|] eqn:Ek; cbn; [|done]. rewrite (lookup_app_l_Some _ _ _ _ Ek). cbn. eauto.
  - intros [|j q] g; cbn; [done|].
    destruct (x_kids t !! j) as [k0|] eqn:Ek; cbn; [|done]. by rewrite (lookup_app_l_Some _ _ _ _ Ek).
  - intros [|j q] n'; cbn; [done|]. destruct (x_kids t !! j) as [k0|] eqn:Ek; cbn.
    + rewrite (lookup_app_l_Some _ _ _ _ Ek). cbn. congruence.
    + intros _. pose proof Ek as Hge. apply lookup_ge_None in Hge. rewrite lookup_app_r by done. intros Hn.
      destruct ([k] !! (j - length (x_kids t))) as [k0|] eqn:E0; cbn in Hn; [|done].
      apply list_lookup_singleton_Some in E0 as [Hj <-]. destruct (HQ _ _ Hn) as [? ?].
      split; [done|]. exists q. split; [f_equal; lia|done].
Qed.
Lemma new_text g q n : x_at q (new_elem g) = Some n -> q = [] /\ n = new_elem g.
Proof. destruct q; cbn; [by intros [= <-]|done]. Qed.

Lemma ensure_root path t :
  let t' := fst (ensure path t) in x_tag t' = x_tag t /\ x_attrs t' = x_attrs t /\ x_text t' = x_text t.
Proof.
  destruct path as [|g rest]; cbn; [done|]. destruct (list_find _ _) as [[i k]|].
  - destruct (ensure rest k); done.
  - destruct (ensure rest (new_elem g)); done.
Qed.
Lemma ensure_grown path t :
  grown (fun q => q `prefix_of` snd (ensure path t)) t (fst (ensure path t)).
Proof.
  revert t. induction path as [|g rest IH]; intros t; cbn; [apply grown_refl|].
  destruct (list_find (fun k => x_tag k = g) (x_kids t)) as [[i k]|] eqn:Ef.
  - apply list_find_Some in Ef as (Hk & Hg & _). specialize (IH k). pose proof (ensure_root rest k) as R.
    destruct (ensure rest k) as [k' p] eqn:Ee. cbn in *. destruct R as (R1 & R2 & R3).
    eapply grown_weaken; [|eapply grown_kid; [done..|exact IH]]. intros q (r & -> & Hr). by apply prefix_cons.
  - specialize (IH (new_elem g)). pose proof (ensure_root rest (new_elem g)) as R.
    destruct (ensure rest (new_elem g)) as [k' p] eqn:Ee. cbn in *. destruct R as (R1 & R2 & R3).
    eapply grown_weaken; [|apply (grown_new (fun q => q `prefix_of` p))].
    + intros q (r & -> & Hr). by apply prefix_cons.
    + intros q n Hn. destruct IH as (G1 & G2 & G3). destruct (x_at q (new_elem g)) as [n0|] eqn:E0.
      * apply new_text in E0 as [-> ->]. cbn in Hn. injection Hn as <-. split; [by apply (fresh_same (new_elem g)), fresh_new|]. apply prefix_nil.
      * by apply (G3 q n).
Qed.
Lemma ensure_tags path t : tags_to (snd (ensure path t)) (fst (ensure path t)) = Some path.
Proof.
  revert t. induction path as [|g rest IH]; intros t; cbn; [done|].
  destruct (list_find (fun k => x_tag k = g) (x_kids t)) as [[i k]|] eqn:Ef.
  - apply list_find_Some in Ef as (Hk & Hg & _). specialize (IH k). pose proof (ensure_root rest k) as R.
    destruct (ensure rest k) as [k' p] eqn:Ee. cbn in *. destruct R as (R1 & _).
    rewrite list_lookup_insert by (by eapply lookup_lt_Some). cbn. rewrite IH. cbn. by rewrite R1, Hg.
  - specialize (IH (new_elem g)). pose proof (ensure_root rest (new_elem g)) as R.
    destruct (ensure rest (new_elem g)) as [k' p] eqn:Ee. cbn in *. destruct R as (R1 & _).
    rewrite lookup_app_r, Nat.sub_diag by lia. cbn. rewrite IH. cbn. by rewrite R1.
Qed.
Lemma ensure_single path t : single path t -> single path (fst (ensure path t)).
Proof.
  revert t. induction path as [|g rest IH]; intros t; cbn; [done|]. intros HS.
  destruct (list_find (fun k => x_tag k = g) (x_kids t)) as [[i k]|] eqn:Ef.
  - apply list_find_Some in Ef as (Hk & Hg & _). specialize (IH k). pose proof (ensure_root rest k) as R.
    destruct (ensure rest k) as [k' p] eqn:Ee. cbn in *. destruct R as (R1 & _).
    assert (HS' : single rest k).
    { intros pre r1 r2 Hpre H1 H2. assert (i :: r1 = i :: r2) as E.
      { apply (HS (g :: pre)); [by apply prefix_cons|..]; cbn; rewrite Hk; cbn; [rewrite H1|rewrite H2]; cbn; by rewrite Hg. }
      by injection E. }
    specialize (IH HS'). assert (Only : forall j k0, x_kids t !! j = Some k0 -> x_tag k0 = g -> j = i).
    { intros j k0 Hj Hgj. assert ([j] = [i]) as E.
      { apply (HS [g]); [apply prefix_cons, prefix_nil|..]; cbn; [rewrite Hj|rewrite Hk]; cbn; [by rewrite Hgj|by rewrite Hg]. }
      by injection E. }
    assert (In : forall q pre, pre `prefix_of` g :: rest -> pre <> [] ->
        tags_to q (with_kids t (<[i:=k']> (x_kids t))) = Some pre ->
        exists r pre', q = i :: r /\ pre = g :: pre' /\ pre' `prefix_of` rest /\ tags_to r k' = Some pre').
    { intros q pre Hpre Hne. destruct pre as [|g' pre']; [done|].
      pose proof (prefix_cons_inv_1 _ _ _ _ Hpre) as ->. apply prefix_cons_inv_2 in Hpre.
      destruct q as [|j r]; cbn; [done|]. destruct (decide (i = j)) as [->|Hij].
      - rewrite list_lookup_insert by (by eapply lookup_lt_Some). cbn. destruct (tags_to r k') as [h|] eqn:Eh; cbn; [|done].
        intros [= _ <-]. exists r, h. done.
      - rewrite list_lookup_insert_ne by done. destruct (x_kids t !! j) as [k0|] eqn:Ej; cbn; [|done].
        destruct (tags_to r k0) as [h|]; cbn; [|done]. intros [= Hg0 _]. by destruct Hij; symmetry; eapply Only. }
    intros pre q1 q2 Hpre H1 H2. destruct (decide (pre = [])) as [->|Hne].
    { apply tags_length in H1, H2. by destruct q1, q2. }
    destruct (In _ _ Hpre Hne H1) as (r1 & p1 & -> & -> & Hp1 & T1).
    destruct (In _ _ Hpre Hne H2) as (r2 & p2 & -> & [= <-] & Hp2 & T2). f_equal. by apply (IH p1).
  - assert (Hno : forall j k0, x_kids t !! j = Some k0 -> x_tag k0 <> g).
    { intros j k0 Hj Hg. apply list_find_None in Ef. rewrite Forall_lookup in Ef. by eapply Ef. }
    specialize (IH (new_elem g)). pose proof (ensure_root rest (new_elem g)) as R.
    destruct (ensure rest (new_elem g)) as [k' p] eqn:Ee. cbn in *. destruct R as (R1 & _).
    assert (HS' : single rest (new_elem g)).
    { intros pre r1 r2 _ H1 H2. destruct r1; [|done]. destruct r2; [|done]. done. }
    specialize (IH HS').
    assert (In : forall q pre, pre `prefix_of` g :: rest -> pre <> [] -> tags_to q (add_kid t k') = Some pre ->
        exists r pre', q = length (x_kids t) :: r /\ pre = g :: pre' /\ pre' `prefix_of` rest /\ tags_to r k' = Some pre').
    { intros q pre Hpre Hne. destruct pre as [|g' pre']; [done|].
      pose proof (prefix_cons_inv_1 _ _ _ _ Hpre) as ->. apply prefix_cons_inv_2 in Hpre.
      destruct q as [|j r]; cbn; [done|]. destruct ((x_kids t ++ [k']) !! j) as [k0|] eqn:Ej; cbn; [|done].
      destruct (tags_to r k0) as [h|] eqn:Eh; cbn; [|done]. intros [= Hg0 <-].
      apply lookup_app_Some in Ej as [Ej|[Hl Ej]]; [by apply Hno in Ej|].
      apply list_lookup_singleton_Some in Ej as [Hj <-]. exists r, h. split; [f_equal; lia|done]. }
    intros pre q1 q2 Hpre H1 H2. destruct (decide (pre = [])) as [->|Hne].
    { apply tags_length in H1, H2. by destruct q1, q2. }
    destruct (In _ _ Hpre Hne H1) as (r1 & p1 & -> & -> & Hp1 & T1).
    destruct (In _ _ Hpre Hne H2) as (r2 & p2 & -> & [= <-] & Hp2 & T2). f_equal. by apply (IH p1).
Qed.

(** Adding a child somewhere. *)
Definition end_of (par : list nat) (t : xml) : nat := match x_at par t with Some n => length (x_kids n) | None => 0 end.
Lemma alter_is_insert {A} (f : A -> A) (l : list A) i a : l !! i = Some a -> alter f i l = <[i := f a]> l.
Proof. revert i. induction l as [|b l IH]; intros [|i] H; try done; cbn in *; [by injection H as ->|]. f_equal. by apply IH. Qed.
Lemma add_at_root k par t :
  let t' := x_alter (fun n => add_kid n k) par t in x_tag t' = x_tag t /\ x_attrs t' = x_attrs t /\ x_text t' = x_text t.
Proof. by destruct par. Qed.
Lemma add_at_grown g par h t :
  tags_to par t = Some h ->
  let t' := x_alter (fun n => add_kid n (new_elem g)) par t in
  grown (fun q => q = par ++ [end_of par t]) t t' /\ tags_to (par ++ [end_of par t]) t' = Some (h ++ [g]).
Proof.
  revert h t. induction par as [|i par IH]; intros h t; cbn.
  - intros [= <-]. split.
    + eapply grown_weaken; [|apply (grown_new (fun q => q = []))]; [by intros q (r & -> & ->)|].
      intros q n Hn. apply new_text in Hn as [-> ->]. split; [apply fresh_new|done].
    + rewrite lookup_app_r, Nat.sub_diag by done. done.
  - unfold end_of. cbn. destruct (x_kids t !! i) as [k|] eqn:Ek; cbn; [|done].
    destruct (tags_to par k) as [h'|] eqn:Eh; cbn; [|done]. intros [= <-].
    destruct (IH h' k Eh) as [G T]. pose proof (add_at_root (new_elem g) par k) as (R1 & R2 & R3).
    rewrite (alter_is_insert _ _ _ _ Ek). split.
    + eapply grown_weaken; [|eapply grown_kid; [done..|exact G]]. by intros q (r & -> & ->).
    + rewrite list_lookup_insert by (by eapply lookup_lt_Some). cbn. fold (end_of par k). rewrite T. cbn. by rewrite R1.
Qed.

(** ** The whole function *)
Lemma prefix_tags p q t g : q `prefix_of` p -> tags_to p t = Some g -> exists h, tags_to q t = Some h /\ h `prefix_of` g.
Proof.
  intros [r ->]. revert t g. induction q as [|i q IH]; intros t g; cbn; [intros _; eexists; split; [done|apply prefix_nil]|].
  destruct (x_kids t !! i) as [k|]; cbn; [|done]. destruct (tags_to (q ++ r) k) as [g'|] eqn:E; cbn; [|done]. intros [= <-].
  destruct (IH _ _ E) as (h & -> & Hh). cbn. eexists. split; [done|]. by apply prefix_cons.
Qed.
Lemma prefix_at p q t n : q `prefix_of` p -> x_at p t = Some n -> exists m, x_at q t = Some m.
Proof. intros [r ->] H. rewrite x_at_app in H. destruct (x_at q t); [eauto|done]. Qed.

Lemma found_spec g par t h :
  tags_to par t = Some h ->
  let '(t', p) := found_or_new (find_all (h ++ [g]) t) g par t in
  grown (fun q => q = p) t t' /\ first_with (h ++ [g]) t' p /\
  ((t' = t /\ first_with (h ++ [g]) t p) \/ ((forall q, tags_to q t <> Some (h ++ [g])) /\ exists i, p = par ++ [i])).
Proof.
  intros Hp. pose proof (find_cases (h ++ [g]) t) as C. unfold found_or_new. destruct (find_all (h ++ [g]) t) as [|p l].
  - destruct (add_at_grown g par h t Hp) as [G T]. fold (end_of par t). split; [exact G|].
    split; [|right; eauto]. split; [exact T|]. intros q Hq. left.
    destruct G as (G1 & G2 & G3). destruct (x_at q t) as [n|] eqn:E.
    + apply at_tags in E as [g' Hg']. pose proof (G2 _ _ Hg') as H'. rewrite Hq in H'. injection H' as <-. by apply C in Hg'.
    + apply tags_at in Hq as [n' Hn']. by apply (G3 q n').
  - split; [apply grown_refl|]. split; [exact C|]. by left.
Qed.
Lemma found_grown found P g par t t' :
  grown P t t' -> (forall q, P q -> tags_to q t' <> Some found) ->
  (match find_all found t with [] => True | p :: _ => first_with found t' p end) /\
  (find_all found t = [] -> find_all found t' = []) /\
  found_or_new (find_all found t) g par t' = found_or_new (find_all found t') g par t'.
Proof.
  intros G HP. pose proof (grown_tags _ _ _ _ G HP) as E. pose proof (find_cases found t) as C. pose proof (find_cases found t') as C'.
  destruct (find_all found t) as [|p l], (find_all found t') as [|p' l'].
  - done.
  - exfalso. destruct C' as [C' _]. apply E in C'. by apply C in C'.
  - exfalso. destruct C as [C _]. apply E in C. by apply C' in C.
  - pose proof (first_ext _ _ _ _ E C) as F. split; [done|]. split; [done|]. cbn. f_equal. by eapply first_unique.
Qed.

Lemma tag_ne : begin_tag <> end_tag.
Proof. discriminate. Qed.
Lemma path_ne : begin_path <> end_path.
Proof. discriminate. Qed.

Lemma tags_snoc p t h g : tags_to p t = Some (h ++ [g]) -> exists par i, p = par ++ [i] /\ tags_to par t = Some h.
Proof.
  intros H. pose proof (tags_length _ _ _ H) as L. rewrite app_length in L. cbn in L.
  destruct p as [|i p _] using rev_ind; [cbn in L; lia|]. exists p, i. split; [done|].
  destruct (prefix_tags (p ++ [i]) p t _ (prefix_app_r _ _ _ (reflexivity p)) H) as (h' & Hh' & [r Hr]).
  pose proof (tags_length _ _ _ Hh') as L'. rewrite app_length in L. cbn in L. rewrite Hh'. f_equal.
  apply (f_equal (take (length h))) in Hr as Ht. rewrite take_app in Ht. rewrite Ht.
  rewrite take_app_alt by lia. done.
Qed.
(** The document with the elements for the times, and where these are. *)
Lemma temporal_shape t :
  exists t3 b f, (forall s e, set_temporal s e t = x_alter (with_text e) f (x_alter (with_text s) b t3)) /\
    grown (fun q => q `prefix_of` b \/ q `prefix_of` f) t t3 /\ first_with begin_path t3 b /\ first_with end_path t3 f /\
    (single temporal_hierarchy t -> exists i j par, b = par ++ [i] /\ f = par ++ [j]).
Proof.
  unfold set_temporal. fold begin_path end_path.
  assert (Hboth : (exists b lb f lf, find_all begin_path t = b :: lb /\ find_all end_path t = f :: lf) \/
    ((find_all begin_path t = [] \/ find_all end_path t = []) /\
     match find_all begin_path t, find_all end_path t with _ :: _, _ :: _ => (t, []) | _, _ => ensure temporal_hierarchy t end
     = ensure temporal_hierarchy t)).
  { destruct (find_all begin_path t) as [|b lb], (find_all end_path t) as [|f lf]; [right; auto..|]. left. eauto 10. }
  assert (Hpar : forall t' b f, first_with begin_path t' b -> first_with end_path t' f -> single temporal_hierarchy t' ->
    exists i j par, b = par ++ [i] /\ f = par ++ [j]).
  { intros t' b f [Hb _] [Hf _] HS. apply tags_snoc in Hb as (p1 & i & -> & H1). apply tags_snoc in Hf as (p2 & j & -> & H2).
    assert (p1 = p2) as -> by (by apply (HS temporal_hierarchy)). eauto. }
  destruct Hboth as [(b & lb & f & lf & Eb & Ef)|[Hnone ->]].
  - pose proof (find_cases begin_path t) as Cb. pose proof (find_cases end_path t) as Cf. rewrite Eb in *. rewrite Ef in *.
    exists t, b, f. split; [done|]. split; [apply grown_refl|]. split; [done|]. split; [done|]. intros HS. by eapply Hpar.
  - pose proof (ensure_grown temporal_hierarchy t) as G1. pose proof (ensure_tags temporal_hierarchy t) as T1.
    pose proof (ensure_single temporal_hierarchy t) as S1.
    destruct (ensure temporal_hierarchy t) as [t1 par] eqn:Ee. cbn [fst snd] in *.
    assert (Hlen : forall q t' path, tags_to par t' = Some temporal_hierarchy -> q `prefix_of` par -> length path = 9 -> tags_to q t' <> Some path).
    { intros q t' path T Hq HL Hp. pose proof (tags_length _ _ _ Hp). pose proof (tags_length _ _ _ T) as L.
      apply prefix_length in Hq. cbn in L. lia. }
    destruct (found_grown begin_path _ begin_tag par t t1 G1) as (_ & Ib & Eb).
    { intros q Hq. by apply (Hlen q). }
    rewrite Eb. pose proof (found_spec begin_tag par t1 temporal_hierarchy T1) as Fb. fold begin_path in Fb.
    destruct (found_or_new (find_all begin_path t1) begin_tag par t1) as [t2 b] eqn:E2. destruct Fb as (G2 & F2 & C2).
    assert (T2 : tags_to par t2 = Some temporal_hierarchy) by (by apply G2).
    assert (G02 : grown (fun q => q `prefix_of` par \/ q = b) t t2).
    { eapply grown_trans; [eapply grown_weaken; [|exact G1]; cbn; auto|eapply grown_weaken; [|exact G2]; cbn; auto]. }
    destruct (found_grown end_path _ end_tag par t t2 G02) as (_ & If & Ef).
    { intros q [Hq| ->]; [by apply (Hlen q)|]. destruct F2 as [F2 _]. rewrite F2. intros [= E]. }
    rewrite Ef. pose proof (found_spec end_tag par t2 temporal_hierarchy T2) as Ff. fold end_path in Ff.
    destruct (found_or_new (find_all end_path t2) end_tag par t2) as [t3 f] eqn:E3. destruct Ff as (G3 & F3 & C3).
    exists t3, b, f. split; [done|].
    assert (F2' : first_with begin_path t3 b).
    { eapply first_ext; [|exact F2]. eapply grown_tags; [exact G3|]. intros q ->. destruct F3 as [F3 _]. rewrite F3. intros [= E]. }
    split; [|split; [exact F2'|split; [exact F3|]]].
    + eapply grown_trans; [eapply grown_weaken; [|exact G02]|eapply grown_weaken; [|exact G3]].
      * cbn. intros q [Hq| ->]; [|by left]. destruct Hnone as [Hn|Hn].
        -- left. apply Ib in Hn. destruct C2 as [[_ [C2 _]]|[_ [i ->]]]; [|by apply prefix_app_r].
           exfalso. apply elem_of_find in C2. rewrite Hn in C2. by apply elem_of_nil in C2.
        -- right. apply If in Hn. destruct C3 as [[_ [C3 _]]|[_ [i ->]]]; [|by apply prefix_app_r].
           exfalso. apply elem_of_find in C3. rewrite Hn in C3. by apply elem_of_nil in C3.
      * cbn. intros q ->. by right.
    + intros HS. specialize (S1 HS).
      assert (back : forall q, tags_to q t3 = Some temporal_hierarchy -> tags_to q t1 = Some temporal_hierarchy).
      { intros q Hq. apply (grown_tags _ _ _ temporal_hierarchy G2); [intros q' ->; destruct F2 as [F2 _]; rewrite F2; intros [= E]|].
        apply (grown_tags _ _ _ temporal_hierarchy G3); [intros q' ->; destruct F3 as [F3 _]; rewrite F3; intros [= E]|]. done. }
      destruct F2' as [Hb _]. destruct F3 as [Hf _].
      apply tags_snoc in Hb as (p1 & i & -> & H1). apply tags_snoc in Hf as (p2 & j & -> & H2).
      assert (p1 = p2) as -> by (apply (S1 temporal_hierarchy); auto). eauto.
Qed.
Lemma shape_tags t3 b f s e q :
  tags_to q (x_alter (with_text e) f (x_alter (with_text s) b t3)) = tags_to q t3.
Proof. by rewrite !tags_text. Qed.
Lemma first_tags path t t' p : (forall q, tags_to q t' = tags_to q t) -> first_with path t p -> first_with path t' p.
Proof. intros H. apply first_ext. intros q. by rewrite H. Qed.

Lemma temporal_written s e t :
  exists b f nb nf, first_with begin_path (set_temporal s e t) b /\ x_at b (set_temporal s e t) = Some nb /\ x_text nb = Some s /\
    first_with end_path (set_temporal s e t) f /\ x_at f (set_temporal s e t) = Some nf /\ x_text nf = Some e.
Proof.
  destruct (temporal_shape t) as (t3 & b & f & E & G & Fb & Ff & _). rewrite E.
  assert (Hbf : b <> f). { intros ->. destruct Fb as [Fb _], Ff as [Ff _]. apply path_ne. congruence. }
  pose proof (tags_at _ _ _ (proj1 Fb)) as [nb Hb]. pose proof (tags_at _ _ _ (proj1 Ff)) as [nf Hf].
  pose proof (at_text_same s b t3 nb Hb) as Hb1.
  destruct (at_text_other s b f t3 nf Hf (fun H => Hbf (eq_sym H))) as (nf1 & Hf1 & _).
  destruct (at_text_other e f b _ _ Hb1 Hbf) as (nb2 & Hb2 & _ & _ & Tb).
  pose proof (at_text_same e f _ _ Hf1) as Hf2.
  exists b, f, nb2, (with_text e nf1). split; [eapply first_tags; [intros q; apply shape_tags|done]|].
  split; [done|]. split; [by rewrite Tb|]. split; [eapply first_tags; [intros q; apply shape_tags|done]|]. done.
Qed.
Lemma temporal_rest s e t b f :
  first_with begin_path (set_temporal s e t) b -> first_with end_path (set_temporal s e t) f ->
  (forall q n, x_at q t = Some n -> exists n', x_at q (set_temporal s e t) = Some n' /\ x_tag n' = x_tag n /\ x_attrs n' = x_attrs n /\
     (q <> b -> q <> f -> x_text n' = x_text n)) /\
  (forall q n', x_at q t = None -> x_at q (set_temporal s e t) = Some n' ->
     (q `prefix_of` b \/ q `prefix_of` f) /\ (q <> b -> q <> f -> x_text n' = None) /\
     (x_tag n' = gml +:+ "TimePeriod" -> x_attrs n' = [(gml +:+ "id", "temporal-extent-1"); (xsi +:+ "type", "gml:TimePeriodType")]) /\
     (x_tag n' <> gml +:+ "TimePeriod" -> x_attrs n' = [])).
Proof.
  destruct (temporal_shape t) as (t3 & b' & f' & E & G & Fb & Ff & _). rewrite E. intros Hb Hf.
  assert (b' = b) as ->.
  { eapply first_unique; [|exact Hb]. eapply first_tags; [intros q; apply shape_tags|done]. }
  assert (f' = f) as ->.
  { eapply first_unique; [|exact Hf]. eapply first_tags; [intros q; apply shape_tags|done]. }
  assert (Hset : forall q n, x_at q t3 = Some n -> exists n', x_at q (x_alter (with_text e) f (x_alter (with_text s) b t3)) = Some n' /\
      x_tag n' = x_tag n /\ x_attrs n' = x_attrs n /\ (q <> b -> q <> f -> x_text n' = x_text n)).
  { intros q n Hn.
    assert (H1 : exists n1, x_at q (x_alter (with_text s) b t3) = Some n1 /\
      x_tag n1 = x_tag n /\ x_attrs n1 = x_attrs n /\ (q <> b -> x_text n1 = x_text n)).
    { destruct (decide (q = b)) as [->|Hq]; [rewrite (at_text_same _ _ _ _ Hn); eexists; split; [reflexivity|done]|].
      destruct (at_text_other s b q t3 n Hn Hq) as (n1 & ? & ? & ? & ?). eauto 6. }
    destruct H1 as (n1 & H1 & A1 & B1 & C1).
    destruct (decide (q = f)) as [->|Hq]; [rewrite (at_text_same _ _ _ _ H1); eexists; split; [reflexivity|done]|].
    destruct (at_text_other e f q _ n1 H1 Hq) as (n2 & H2 & A2 & B2 & C2). exists n2. split; [done|].
    split; [congruence|]. split; [congruence|]. intros. rewrite C2. auto. }
  destruct G as (G1 & _ & G3). split.
  - intros q n Hn. destruct (G1 q n Hn) as (n1 & H1 & A1 & B1 & C1). destruct (Hset q n1 H1) as (n2 & H2 & A2 & B2 & C2).
    exists n2. split; [done|]. split; [congruence|]. split; [congruence|]. intros Hq1 Hq2. rewrite C2; auto.
  - intros q n' H0 Hn'. destruct (x_at q t3) as [n|] eqn:E3.
    + destruct (G3 q n H0 E3) as [(T & T1 & T2) P]. split; [done|]. destruct (Hset q n E3) as (n2 & H2 & A2 & B2 & C2).
      assert (n2 = n') as -> by congruence. rewrite A2, B2. split; [|by split]. intros. rewrite C2; auto.
    + pose proof (at_text_none e f q _ (at_text_none s b q t3 E3)). congruence.
Qed.
Lemma temporal_again s e s' e' t : set_temporal s' e' (set_temporal s e t) = set_temporal s' e' t.
Proof.
  destruct (temporal_shape t) as (t3 & b & f & E & G & Fb & Ff & _). rewrite !E.
  set (t' := x_alter (with_text e) f (x_alter (with_text s) b t3)).
  assert (Fb' : first_with begin_path t' b) by (eapply first_tags; [intros q; apply shape_tags|done]).
  assert (Ff' : first_with end_path t' f) by (eapply first_tags; [intros q; apply shape_tags|done]).
  assert (Hbf : b <> f). { intros ->. destruct Fb as [Fb _], Ff as [Ff _]. apply path_ne. congruence. }
  assert (set_temporal s' e' t' = x_alter (with_text e') f (x_alter (with_text s') b t')) as ->.
  { unfold set_temporal. fold begin_path end_path.
    pose proof (find_cases begin_path t') as Cb. pose proof (find_cases end_path t') as Cf.
    destruct (find_all begin_path t') as [|b1 lb]; [by destruct Fb' as [Fb' _]; apply Cb in Fb'|].
    destruct (find_all end_path t') as [|f1 lf]; [by destruct Ff' as [Ff' _]; apply Cf in Ff'|]. cbn.
    by rewrite (first_unique _ _ _ _ Cb Fb'), (first_unique _ _ _ _ Cf Ff'). }
  unfold t'. rewrite (text_comm s' e b f) by done. rewrite text_text, text_text. done.
Qed.
Lemma temporal_together s e t b f :
  single temporal_hierarchy t ->
  first_with begin_path (set_temporal s e t) b -> first_with end_path (set_temporal s e t) f ->
  exists par i j, b = par ++ [i] /\ f = par ++ [j].
Proof.
  destruct (temporal_shape t) as (t3 & b' & f' & E & G & Fb & Ff & HS). rewrite E. intros S Hb Hf.
  assert (b' = b) as ->.
  { eapply first_unique; [|exact Hb]. eapply first_tags; [intros q; apply shape_tags|done]. }
  assert (f' = f) as ->.
  { eapply first_unique; [|exact Hf]. eapply first_tags; [intros q; apply shape_tags|done]. }
  destruct (HS S) as (i & j & par & -> & ->). eauto.
Qed.

Lemma single_check path t :
  forallb (fun n => Nat.leb (length (find_all (take n path) t)) 1) (seq 0 (S (length path))) = true -> single path t.
Proof.
  intros H pre p q Hpre Hp Hq. rewrite forallb_forall in H.
  assert (pre = take (length pre) path) as E by (destruct Hpre as [r ->]; by rewrite take_app).
  specialize (H (length pre)). apply prefix_length in Hpre. rewrite in_seq in H. specialize (H ltac:(lia)).
  apply Nat.leb_le in H. rewrite <- E in H. apply elem_of_find in Hp, Hq.
  destruct (find_all pre t) as [|a [|b l]]; cbn in H; [by apply elem_of_nil in Hp| |lia].
  apply elem_of_list_singleton in Hp, Hq. congruence.
Qed.

(** ** The Caris file *)
Lemma read_escape_et l : Forall (fun c => legal c = true /\ c <> "013"%char) l -> read_text (escape_et l) = Some l.
Proof.
  induction 1 as [|c r [Hl Hc] _ IH]; [done|]. cbn [escape_et].
  destruct (Ascii.eqb_spec c "&"%char) as [->|N1]; [cbn; by rewrite IH|].
  destruct (Ascii.eqb_spec c "<"%char) as [->|N2]; [cbn; by rewrite IH|].
  destruct (Ascii.eqb_spec c ">"%char) as [->|N3]; [cbn; by rewrite IH|].
  cbn [app read_text]. apply Ascii.eqb_neq in N1, N2, Hc. rewrite N1, N2, Hc, Hl, IH. done.
Qed.
Lemma unquote_other c r : c <> "&"%char -> unquote (c :: r) = c :: unquote r.
Proof. destruct c as [[] [] [] [] [] [] [] []]; try done; intros H; by destruct H. Qed.
Lemma read_unquote_dom l : Forall (fun c => legal c = true /\ c <> "013"%char) l -> read_text (unquote (escape_dom l)) = Some l.
Proof.
  induction 1 as [|c r [Hl Hc] _ IH]; [done|]. cbn [escape_dom].
  destruct (Ascii.eqb_spec c "&"%char) as [->|N1]; [cbn -[escape_dom]; by rewrite IH|].
  destruct (Ascii.eqb_spec c "<"%char) as [->|N2]; [cbn -[escape_dom]; by rewrite IH|].
  destruct (Ascii.eqb_spec c """"%char) as [->|N4]; [cbn -[escape_dom]; by rewrite IH|].
  destruct (Ascii.eqb_spec c ">"%char) as [->|N3]; [cbn -[escape_dom]; by rewrite IH|].
  cbn [app]. rewrite unquote_other by done. cbn [read_text].
  apply Ascii.eqb_neq in N1, N2, Hc. rewrite N1, N2, Hc, Hl, IH. done.
Qed.
Lemma rxl_plain s : plain s -> exists w, rxl_text s = Some w /\ read_text w = Some (list_ascii_of_string s).
Proof.
  intros H. unfold rxl_text. rewrite read_escape_et by done. cbn. eexists. split; [done|]. by apply read_unquote_dom.
Qed.
Lemma unquote_copy l x y : unquote l = x :: y -> x <> """"%char -> exists r, l = x :: r /\ unquote r = y.
Proof.
  destruct l as [|c r]; [done|]. intros H Hx.
  assert (unquote (c :: r) = c :: unquote r \/ exists z, unquote (c :: r) = """"%char :: z) as [E|[z E]].
  { cbn. repeat (match goal with |- context [match ?a with _ => _ end] => destruct a end; cbn; try (left; reflexivity)); right; eauto. }
  - rewrite E in H. injection H as -> <-. eauto.
  - rewrite E in H. injection H as <- _. done.
Qed.
Lemma unquote_step c r :
  unquote (c :: r) = c :: unquote r \/
  exists r', c :: r = list_ascii_of_string "&quot;" ++ r' /\ unquote (c :: r) = """"%char :: unquote r'.
Proof.
  cbn. repeat (match goal with |- context [match ?a with _ => _ end] => destruct a end; cbn; try (left; reflexivity)); right; eauto.
Qed.
Lemma unquote_free l : forall a b, unquote l <> a ++ list_ascii_of_string "&quot;" ++ b.
Proof.
  induction l as [l IH] using (induction_ltof1 _ (@length ascii)). unfold ltof in IH. intros a b H.
  destruct l as [|c0 r]; [by destruct a|]. destruct a as [|c a].
  - pose proof H as H0. change (unquote (c0 :: r) = "&"%char :: "q"%char :: "u"%char :: "o"%char :: "t"%char :: ";"%char :: b) in H.
    repeat (match type of H with unquote ?l = _ => apply unquote_copy in H as (? & ? & H); [|discriminate] end).
    simplify_eq.
  - destruct (unquote_step c0 r) as [E|(r' & E' & E)]; rewrite E in H; injection H as _ H.
    + eapply IH; [|exact H]. cbn. lia.
    + eapply IH; [|exact H]. rewrite E'. cbn. lia.
Qed.
Lemma rxl_quote s w : rxl_text s = Some w -> forall a b, w <> a ++ list_ascii_of_string "&quot;" ++ b.
Proof. unfold rxl_text. destruct (read_text _); cbn; [|done]. intros [= <-]. apply unquote_free. Qed.
