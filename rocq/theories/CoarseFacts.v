(** Facts that compare cells of different resolutions (C119). *)
From Coq Require Import Lqa.
From Verif Require Import Py Nd Numpy Point Bin Algorithms Tile Time Meta Disk Grid GridRun GridQuery GridOps Export Spec TileExec GridExec WholeSpec SameSpec
  PyFacts NdFacts NumpyFacts AlgFacts MiscFacts GridSameFacts CompareSpec CompareFacts.
Open Scope Z_scope.

Lemma elem_of_parts k i j : (i, j) ∈ parts k <-> (i < k)%nat /\ (j < k)%nat.
Proof. unfold parts. rewrite elem_of_list_In, in_prod_iff, !in_seq. lia. Qed.
Lemma NoDup_list_prod (l l' : list nat) : NoDup l -> NoDup l' -> NoDup (list_prod l l').
Proof.
  intros Hl Hl'. induction Hl as [|i l Hi Hl IH]; cbn [list_prod]; [constructor|].
  apply NoDup_app. split; [|split; [|exact IH]].
  - by apply (NoDup_fmap_2 (pair i)).
  - intros [a b] (c & [= -> ->] & _)%elem_of_list_fmap Hin%elem_of_list_In%in_prod_iff. destruct Hin as [Hin _]. apply Hi. by apply elem_of_list_In.
Qed.
Lemma NoDup_parts k : NoDup (parts k).
Proof. apply NoDup_list_prod; apply NoDup_seq. Qed.
Definition part_at (r x y : Z) (ij : nat * nat) (d : list point) : list point := points_at r (x + Z.of_nat ij.2 * r) (y + Z.of_nat ij.1 * r) d.
Lemma in_parts r k x y p : 0 < r -> in_square x y (Z.of_nat k * r) (px p) (py p) <->
  exists i j, (i < k)%nat /\ (j < k)%nat /\ in_square (x + Z.of_nat j * r) (y + Z.of_nat i * r) r (px p) (py p).
Proof.
  intros Hr. unfold in_square. split.
  - intros [H1 H2]. assert (A : forall u c, c <= u < c + Z.of_nat k * r -> (Z.to_nat ((u - c) / r) < k)%nat /\ c + Z.of_nat (Z.to_nat ((u - c) / r)) * r <= u < c + Z.of_nat (Z.to_nat ((u - c) / r)) * r + r).
    { intros u c Hu. assert (0 <= (u - c) / r) by (apply Z.div_pos; lia). assert ((u - c) / r < Z.of_nat k) by (apply Z.div_lt_upper_bound; lia).
      rewrite Z2Nat.id by done. pose proof (Z.div_mod (u - c) r ltac:(lia)). pose proof (Z.mod_pos_bound (u - c) r Hr). split; lia. }
    destruct (A _ _ H1) as [B1 B2], (A _ _ H2) as [B3 B4]. do 2 eexists. split; [exact B3|]. split; [exact B1|]. split; [exact B2|exact B4].
  - intros (i & j & Hi & Hj & H1 & H2).
    assert (Z.of_nat j * r + r <= Z.of_nat k * r) by (replace (Z.of_nat j * r + r) with ((Z.of_nat j + 1) * r) by lia; apply Z.mul_le_mono_nonneg_r; lia).
    assert (Z.of_nat i * r + r <= Z.of_nat k * r) by (replace (Z.of_nat i * r + r) with ((Z.of_nat i + 1) * r) by lia; apply Z.mul_le_mono_nonneg_r; lia). 
    assert (0 <= Z.of_nat j * r) by (apply Z.mul_nonneg_nonneg; lia). assert (0 <= Z.of_nat i * r) by (apply Z.mul_nonneg_nonneg; lia). lia.
Qed.
Lemma same_part r x y i j i' j' u v : 0 < r -> in_square (x + Z.of_nat j * r) (y + Z.of_nat i * r) r u v -> in_square (x + Z.of_nat j' * r) (y + Z.of_nat i' * r) r u v -> (i, j) = (i', j').
Proof.
  unfold in_square. intros Hr [A1 A2] [B1 B2].
  assert (E : forall a b c w : Z, c + a * r <= w < c + a * r + r -> c + b * r <= w < c + b * r + r -> a = b).
  { intros a b c w H1 H2. rewrite (Z.div_unique (w - c) r a (w - c - a * r)) by lia. symmetry. apply (Z.div_unique (w - c) r b (w - c - b * r)); lia. }
  f_equal; apply Nat2Z.inj; [exact (E _ _ y v A2 B2)|exact (E _ _ x u A1 B1)].
Qed.
Lemma sum_one {A} (f : A -> nat) a : forall L, NoDup L -> a ∈ L -> f a = 1%nat -> (forall b, b ∈ L -> b <> a -> f b = 0%nat) -> sum_list_with f L = 1%nat.
Proof.
  induction 1 as [|b L Hb HL IH]; [intros H; by apply elem_of_nil in H|]. intros [->|Ha]%elem_of_cons Hf H0; cbn.
  - rewrite Hf. enough (sum_list_with f L = 0%nat) by lia. clear IH HL. assert (HZ : forall c, c ∈ L -> f c = 0%nat).
    { intros c Hc. apply H0; [by right|]. by intros ->. }
    clear -HZ. induction L as [|c L IH]; [done|]. cbn. rewrite (HZ c) by left. apply IH. intros; apply HZ; by right.
  - rewrite (H0 b) by (try left; intros ->; done). apply IH; [done|done|]. intros c Hc Hn. apply H0; [by right|done].
Qed.
Lemma sum_zero {A} (f : A -> nat) L : (forall c, c ∈ L -> f c = 0%nat) -> sum_list_with f L = 0%nat.
Proof. induction L as [|c L IH]; intros HZ; [done|]. cbn. rewrite (HZ c) by left. apply IH. intros; apply HZ; by right. Qed.
Lemma sum_plus {A} (f g : A -> nat) L : sum_list_with (fun a => f a + g a)%nat L = (sum_list_with f L + sum_list_with g L)%nat.
Proof. induction L as [|a L IH]; cbn; [done|]. rewrite IH. lia. Qed.
Lemma sum_ext {A} (f g : A -> nat) L : (forall a, f a = g a) -> sum_list_with f L = sum_list_with g L.
Proof. intros H. induction L as [|a L IH]; cbn; [done|]. by rewrite IH, H. Qed.
Lemma parts_count r k x y d : 0 < r -> length (points_at (Z.of_nat k * r) x y d) = sum_list_with (fun ij => length (part_at r x y ij d)) (parts k).
Proof.
  intros Hr. induction d as [|p d IH]; [unfold part_at, points_at; cbn; symmetry; by apply sum_zero|].
  rewrite (sum_ext _ (fun ij => length (part_at r x y ij [p]) + length (part_at r x y ij d))%nat).
  2:{ intros ij. unfold part_at. change (p :: d) with ([p] ++ d). by rewrite points_at_app, app_length. }
  rewrite sum_plus, <- IH. change (p :: d) with ([p] ++ d). rewrite points_at_app, app_length. f_equal. clear IH.
  destruct (decide (in_square x y (Z.of_nat k * r) (px p) (py p))) as [H|H].
  - assert (E : points_at (Z.of_nat k * r) x y [p] = [p]) by (unfold points_at; by rewrite filter_cons_True). rewrite E. cbn [length].
    apply in_parts in H as (i & j & Hi & Hj & H); [|done]. symmetry. apply (sum_one _ (i, j)); [apply NoDup_parts|by apply elem_of_parts| |].
    + unfold part_at, points_at. by rewrite filter_cons_True.
    + intros [i' j'] _ Hn. unfold part_at, points_at. rewrite filter_cons_False; [done|]. cbn [fst snd]. intros H'. apply Hn. exact (same_part _ _ _ _ _ _ _ _ _ Hr H' H).
  - assert (E : points_at (Z.of_nat k * r) x y [p] = []) by (unfold points_at; by rewrite filter_cons_False). rewrite E. cbn [length].
    symmetry. apply sum_zero. intros [i j] [Hi Hj]%elem_of_parts. unfold part_at, points_at. rewrite filter_cons_False; [done|]. cbn [fst snd]. intros H'. apply H. apply in_parts; [done|]. eauto.
Qed.
Lemma numQ_sum {A} (f : A -> nat) L : (numQ (sum_list_with f L) == sumQ (map (fun a => numQ (f a)) L))%Q.
Proof.
  induction L as [|a L IH]; cbn [sum_list_with map sumQ fold_right]; [reflexivity|]. unfold numQ in *. rewrite Nat2Z.inj_add, inject_Z_plus. unfold sumQ in IH. rewrite IH. reflexivity.
Qed.
Lemma sumQ_ext {A} (f g : A -> Q) L : (forall a, a ∈ L -> f a == g a)%Q -> (sumQ (map f L) == sumQ (map g L))%Q.
Proof.
  induction L as [|a L IH]; intros H; cbn [map sumQ fold_right]; [reflexivity|]. unfold sumQ in *. rewrite (H a) by left. rewrite IH; [reflexivity|]. intros b Hb. apply H. by right.
Qed.

Section two.
  Context {T1 T2 : Type} (O1 : tile_ops T1) (O2 : tile_ops T2) (e : env).
  Lemma coarse_density alg1 alg2 r k d1 d2 g1 g2 x y (f : nat * nat -> cell) w : settled O1 e alg1 r d1 g1 -> settled O2 e alg2 (Z.of_nat k * r) d2 g2 -> d1 ≡ₚ d2 ->
    (forall i j, (i < k)%nat -> (j < k)%nat -> cell_at O1 e g1 "density" r (x + Z.of_nat j * r) (y + Z.of_nat i * r) (f (i, j))) ->
    cell_at O2 e g2 "density" (Z.of_nat k * r) x y w -> exists q, w = Some q /\ (q == sumQ (map (fun ij => default 0%Q (f ij)) (parts k)))%Q.
  Proof.
    intros S1 S2 Hd H1 H2. assert (Hr := se_pos _ _ _ _ _ _ S1).
    destruct (settled_cell _ _ _ _ _ _ _ S2 (or_intror (or_introl eq_refl)) _ _ _ H2) as [A2 _]. change (w = Some (numQ (length (points_at (Z.of_nat k * r) x y d2)))) in A2. subst w.
    eexists. split; [done|]. rewrite <- (Permutation_length (points_at_perm _ _ _ _ _ Hd)), parts_count, numQ_sum by done. apply sumQ_ext. intros [i j] [Hi Hj]%elem_of_parts.
    destruct (settled_cell _ _ _ _ _ _ _ S1 (or_intror (or_introl eq_refl)) _ _ _ (H1 i j Hi Hj)) as [A1 _]. change (f (i, j) = Some (numQ (length (part_at r x y (i, j) d1)))) in A1. by rewrite A1.
  Qed.
  Lemma coarse_shoalest r k d1 d2 g1 g2 x y (f : nat * nat -> cell) w : settled O1 e "shoalest" r d1 g1 -> settled O2 e "shoalest" (Z.of_nat k * r) d2 g2 -> d1 ≡ₚ d2 ->
    (forall i j, (i < k)%nat -> (j < k)%nat -> cell_at O1 e g1 "depth" r (x + Z.of_nat j * r) (y + Z.of_nat i * r) (f (i, j))) ->
    cell_at O2 e g2 "depth" (Z.of_nat k * r) x y w -> least_of (map f (parts k)) w.
  Proof.
    intros S1 S2 Hd H1 H2. assert (Hr := se_pos _ _ _ _ _ _ S1).
    destruct (settled_cell _ _ _ _ _ _ _ S2 (or_introl eq_refl) _ _ _ H2) as [A2 _]. change (least_cell (map pz (points_at (Z.of_nat k * r) x y d2)) w) in A2.
    apply (least_cell_perm _ (map pz (points_at (Z.of_nat k * r) x y d1))) in A2; [|apply Permutation_map, points_at_perm; by symmetry].
    assert (A1 : forall i j, (i < k)%nat -> (j < k)%nat -> least_cell (map pz (part_at r x y (i, j) d1)) (f (i, j))).
    { intros i j Hi Hj. by destruct (settled_cell _ _ _ _ _ _ _ S1 (or_introl eq_refl) _ _ _ (H1 i j Hi Hj)) as [A1 _]. }
    assert (HP : forall p, p ∈ points_at (Z.of_nat k * r) x y d1 <-> exists i j, (i < k)%nat /\ (j < k)%nat /\ p ∈ part_at r x y (i, j) d1).
    { intros p. unfold part_at, points_at. rewrite elem_of_list_filter, (in_parts r) by done. cbn [fst snd]. split.
      - intros [(i & j & ? & ? & ?) ?]. exists i, j. split; [done|]. split; [done|]. by apply elem_of_list_filter.
      - intros (i & j & ? & ? & [? ?]%elem_of_list_filter). eauto 10. }
    destruct A2 as [[E ->]|(m & q & Hm & Hq & ->)].
    - cbn. apply Forall_fmap, Forall_forall. intros [i j] [Hi Hj]%elem_of_parts. cbn. destruct (A1 i j Hi Hj) as [[_ ?]|(m & q & [(z & (p & -> & Hp)%elem_of_list_fmap & _) _] & _)]; [done|exfalso].
      assert (Hin : p ∈ points_at (Z.of_nat k * r) x y d1) by (apply HP; eauto). destruct (points_at (Z.of_nat k * r) x y d1); [by apply elem_of_nil in Hin|done].
    - assert (Hlow : forall i j a, (i < k)%nat -> (j < k)%nat -> f (i, j) = Some a -> (q <= a)%Q).
      { intros i j a Hi Hj Ha. pose proof (A1 i j Hi Hj) as B. rewrite Ha in B. destruct B as [[_ ?]|(m' & q' & Hm' & Hq' & [= ->])]; [done|]. eapply round3_mono; [|exact Hq|exact Hq'].
        eapply min_more; [|exact Hm'|exact Hm]. intros z (p & -> & Hp)%elem_of_list_fmap. apply elem_of_list_fmap. exists p. split; [done|]. apply HP. eauto. }
      cbn. split.
      + destruct Hm as [(z & (p & -> & Hp)%elem_of_list_fmap & Ez) Hle]. pose proof Hp as (i & j & Hi & Hj & Hpp)%HP. destruct (A1 i j Hi Hj) as [[E _]|(m' & q' & Hm' & Hq' & Hf)].
        * destruct (part_at r x y (i, j) d1); [by apply elem_of_nil in Hpp|done].
        * exists q'. split; [apply elem_of_list_fmap; exists (i, j); split; [done|by apply elem_of_parts]|]. apply Qle_antisym; [|exact (Hlow i j q' Hi Hj Hf)].
          eapply round3_mono; [|exact Hq'|exact Hq]. rewrite <- Ez. apply (proj2 Hm'). apply elem_of_list_fmap. eauto.
      + intros a ([i j] & Ha & [Hi Hj]%elem_of_parts)%elem_of_list_fmap. exact (Hlow i j a Hi Hj (eq_sym Ha)).
  Qed.
End two.
