(** Splitting container names at '__'. *)
From Coq Require Import Ascii.
From Verif Require Import Py Nd Numpy Point Bin Algorithms Tile Time Meta Spec GridExec PyFacts.
Open Scope Z_scope.

Notation us := ("_"%char).
Notation chars := list_ascii_of_string.
Lemma chars_app a b : chars (a +:+ b) = chars a ++ chars b.
Proof. induction a as [|c a IH]; [done|]. change (c :: chars (a +:+ b) = c :: (chars a ++ chars b)). by rewrite IH. Qed.
Lemma chars_inj a b : chars a = chars b -> a = b.
Proof. intros H. rewrite <- (string_of_list_ascii_of_string a), <- (string_of_list_ascii_of_string b). by rewrite H. Qed.
Lemma chars_string l : chars (string_of_list_ascii l) = l.
Proof. apply list_ascii_of_string_of_list_ascii. Qed.

Definition occ (l : list Ascii.ascii) : Prop := exists a b, l = a ++ us :: us :: b.
Lemma occurs_occ s : occurs "__" s <-> occ (chars s).
Proof.
  split.
  - intros (a & b & ->). exists (chars a), (chars b). by rewrite !chars_app.
  - intros (a & b & E). exists (string_of_list_ascii a), (string_of_list_ascii b). apply chars_inj. rewrite !chars_app, !chars_string. done.
Qed.
Lemma occ_cons x l : occ (x :: l) <-> (x = us /\ head l = Some us) \/ occ l.
Proof.
  split.
  - intros ([|y a] & b & E); [injection E as -> ->; by left|]. injection E as -> ->. right. by exists a, b.
  - intros [[-> H]|(a & b & ->)].
    + destruct l as [|y l]; [done|]. injection H as ->. by exists [], l.
    + by exists (x :: a), b.
Qed.
Lemma occ_nil : ~ occ [].
Proof. intros ([|] & b & E); done. Qed.
Lemma occ_one x : ~ occ [x].
Proof. rewrite occ_cons. intros [[_ H]|H]; [done|by apply occ_nil in H]. Qed.
Lemma eqb_us x : Ascii.eqb x us = true <-> x = us.
Proof. apply Ascii.eqb_eq. Qed.

Lemma split_step cur x y l : split_dunder cur (x :: y :: l) =
  if Ascii.eqb x us && Ascii.eqb y us then cur :: split_dunder [] l else split_dunder (cur ++ [x]) (y :: l).
Proof. done. Qed.
(** The first place to split at. *)
Definition first_split (l p b : list Ascii.ascii) : Prop := l = p ++ us :: us :: b /\ ~ occ (p ++ [us]).
Lemma split_none l : forall cur, ~ occ l -> split_dunder cur l = [cur ++ l].
Proof.
  induction l as [|x l IH]; intros cur Hn; [by rewrite app_nil_r|]. rewrite occ_cons in Hn.
  destruct l as [|y l]; [done|]. rewrite split_step. destruct (Ascii.eqb x us && Ascii.eqb y us) eqn:E.
  - apply andb_prop in E as [->%eqb_us ->%eqb_us]. exfalso. apply Hn. by left.
  - rewrite IH by tauto. by rewrite <- app_assoc.
Qed.
Lemma split_first p b : forall cur, ~ occ (p ++ [us]) -> split_dunder cur (p ++ us :: us :: b) = (cur ++ p) :: split_dunder [] b.
Proof.
  induction p as [|x p IH]; intros cur Hn; [cbn [app split_dunder]; by rewrite app_nil_r|].
  cbn [app] in *. rewrite occ_cons in Hn.
  destruct (p ++ us :: us :: b) as [|y r] eqn:Er; [by destruct p|].
  assert (Hy : head (p ++ [us]) = Some y) by (destruct p; cbn in Er; injection Er as -> _; done).
  rewrite split_step. destruct (Ascii.eqb x us && Ascii.eqb y us) eqn:E.
  - apply andb_prop in E as [->%eqb_us ->%eqb_us]. exfalso. apply Hn. by left.
  - rewrite IH by tauto. by rewrite <- app_assoc.
Qed.
Lemma find_split l : ~ occ l \/ exists p b, first_split l p b.
Proof.
  induction l as [|x l IH]; [left; apply occ_nil|].
  destruct (decide (x = us /\ head l = Some us)) as [[-> Hh]|Hn].
  { right. destruct l as [|y l]; [done|]. injection Hh as ->. exists [], l. split; [done|]. apply occ_one. }
  destruct IH as [IH|(p & b & -> & Hp)]; [left; rewrite occ_cons; tauto|]. right. exists (x :: p), b. split; [done|].
  cbn [app]. rewrite occ_cons. intros [[-> Hh]|Ho]; [|done]. apply Hn. split; [done|]. destruct p; cbn in *; done.
Qed.
Lemma first_split_prefix l p b q c : first_split l p b -> first_split l q c -> (length p <= length q)%nat -> p = q.
Proof.
  intros [-> Hp] [E Hq] Hle.
  assert (Hpre : take (length p) q = p).
  { apply (f_equal (take (length p))) in E. rewrite take_app in E. rewrite take_app_le in E by lia. done. }
  destruct (decide (length p = length q)) as [He|He]; [rewrite <- Hpre, He; apply take_ge; lia|].
  exfalso. apply Hq. exists p. rewrite <- (take_drop (length p) q) in E |- *. rewrite Hpre in *. rewrite <- app_assoc in E. apply app_inv_head in E.
  assert (Hd : drop (length p) q <> []) by (intros Ed; apply (f_equal length) in Ed; rewrite drop_length in Ed; cbn in Ed; lia).
  destruct (drop (length p) q) as [|x r]; [done|]. injection E as <- E. rewrite <- app_assoc. destruct r as [|y r]; [by exists []|].
  injection E as <- _. by eexists.
Qed.
Lemma first_split_unique l p b q c : first_split l p b -> first_split l q c -> p = q /\ b = c.
Proof.
  intros H1 H2. assert (p = q) as ->.
  { destruct (Nat.le_ge_cases (length p) (length q)); [by eapply first_split_prefix|symmetry; by eapply first_split_prefix]. }
  split; [done|]. destruct H1 as [-> _], H2 as [E _]. apply app_inv_head in E. by injection E.
Qed.

Lemma before_split k p : before_dunder k p <-> exists b, first_split (chars k) (chars p) b /\ ~ occ b.
Proof.
  split.
  - intros (b & -> & Hp & Hb). rewrite occurs_occ in Hp, Hb. exists (chars b). split; [|done]. split; [by rewrite !chars_app|].
    by rewrite chars_app in Hp.
  - intros (b & [E Hp] & Hb). exists (string_of_list_ascii b). split; [apply chars_inj; by rewrite !chars_app, chars_string|].
    rewrite !occurs_occ, chars_app, chars_string. done.
Qed.
Lemma split_two l : split_dunder [] l <> [].
Proof. destruct (find_split l) as [Hn|(p & b & -> & Hp)]; [by rewrite split_none|by rewrite split_first]. Qed.
Lemma entry_of_spec k : entry_for k (entry_of k).
Proof.
  unfold entry_of, str_split_dunder, entry_for. destruct (find_split (chars k)) as [Hn|(p & b & Hs)].
  - right. rewrite split_none by done. split; [done|]. intros q (b & [E _] & _)%before_split. apply Hn. rewrite E. by eexists _, _.
  - pose proof Hs as [E Hp]. rewrite E, split_first by done. cbn [app map].
    destruct (find_split b) as [Hb|(p2 & b2 & Eb & Hp2)].
    + rewrite split_none by done. cbn [map]. left. apply before_split. exists b. by rewrite chars_string.
    + assert (Hnb : forall q, ~ before_dunder k q).
      { intros q (c & Hc & Ho)%before_split. destruct (first_split_unique _ _ _ _ _ Hs Hc) as [_ <-]. apply Ho. rewrite Eb. by eexists _, _. }
      rewrite Eb, split_first by done. cbn [map]. destruct (split_dunder [] b2) eqn:E2; [by apply split_two in E2|]. cbn [map]. by right.
Qed.
Lemma entry_for_unique k p q : entry_for k p -> entry_for k q -> p = q.
Proof.
  intros [Hp|[-> Hp]] [Hq|[-> Hq]]; try done; [|by apply Hq in Hp|by apply Hp in Hq].
  apply before_split in Hp as (b & Hb & _), Hq as (c & Hc & _). destruct (first_split_unique _ _ _ _ _ Hb Hc) as [E _]. by apply chars_inj.
Qed.

Lemma first_seen_snoc l x : first_seen (l ++ [x]) = first_seen l ++ (if bool_decide (x ∈ l) then [] else [x]).
Proof.
  unfold first_seen. rewrite imap_app, concat_app. f_equal.
  - f_equal. apply imap_ext. intros i y Hy. cbn. rewrite take_app_le; [done|]. apply lookup_lt_Some in Hy. lia.
  - cbn. rewrite Nat.add_0_r, take_app, app_nil_r. done.
Qed.
Lemma elem_of_first_seen l x : x ∈ first_seen l <-> x ∈ l.
Proof.
  induction l as [|y l IH] using rev_ind; [done|]. rewrite first_seen_snoc, !elem_of_app, IH.
  destruct (bool_decide_reflect (y ∈ l)) as [Hy|Hy]; rewrite ?elem_of_list_singleton; [|done]. split; [|intros [?| ->]; [by left|by left]].
  intros [?|Hn]; [by left|by apply not_elem_of_nil in Hn].
Qed.
Lemma add_entries l : foldl add_entry [] l = first_seen (map entry_of l).
Proof.
  induction l as [|k l IH] using rev_ind; [done|]. rewrite foldl_snoc, map_app, IH. cbn [map]. rewrite first_seen_snoc. unfold add_entry.
  rewrite (bool_decide_ext _ _ (elem_of_first_seen _ _)). destruct (bool_decide _); [by rewrite app_nil_r|done].
Qed.
