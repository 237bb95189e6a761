(** Powers of two, index arithmetic, resolution tables. *)
From Coq Require Import Lqa.
From Verif Require Import Py Nd Numpy Point Bin Algorithms Tile Spec PyFacts NumpyFacts AlgFacts.
Open Scope Z_scope.
Ltac Zify.zify_post_hook ::= Z.div_mod_to_equations.

(** ** Powers of two *)
Lemma land_pow2 i : 0 < i -> Z.land i (i - 1) = 0 <-> exists k, 0 <= k /\ i = 2 ^ k.
Proof.
  intros Hi. destruct i as [|p|p]; try lia. clear Hi. induction p as [p IH|p IH|].
  - replace (Z.pos p~1 - 1) with (2 * Z.pos p) by lia.
    replace (Z.pos p~1) with (2 * Z.pos p + 1) by lia. split.
    + intros H. exfalso.
      assert (Hb : forall n, 0 <= n -> Z.testbit (Z.pos p) n = false).
      { intros n Hn. pose proof (f_equal (fun z => Z.testbit z (Z.succ n)) H) as Hz. cbv beta in Hz.
        rewrite Z.land_spec, Z.testbit_odd_succ, Z.testbit_even_succ, Z.bits_0 in Hz by lia.
        by destruct (Z.testbit (Z.pos p) n). }
      assert (Z.pos p = 0); [|lia]. apply Z.bits_inj'. intros n Hn. rewrite Hb, Z.bits_0; lia.
    + intros (k & Hk & Heq). exfalso. destruct (decide (k = 0)) as [->|]; [simpl in Heq; lia|].
      replace k with (Z.succ (k - 1)) in Heq by lia. rewrite Z.pow_succ_r in Heq by lia. lia.
  - replace (Z.pos p~0) with (2 * Z.pos p) by lia. replace (2 * Z.pos p - 1) with (2 * (Z.pos p - 1) + 1) by lia.
    assert (Hl : Z.land (2 * Z.pos p) (2 * (Z.pos p - 1) + 1) = 2 * Z.land (Z.pos p) (Z.pos p - 1)).
    { apply Z.bits_inj'. intros n Hn. rewrite Z.land_spec. destruct (decide (n = 0)) as [->|].
      - rewrite Z.testbit_even_0, andb_false_l. by rewrite Z.testbit_even_0.
      - replace n with (Z.succ (n - 1)) by lia.
        rewrite Z.testbit_even_succ, Z.testbit_odd_succ, Z.testbit_even_succ by lia.
        by rewrite Z.land_spec. }
    rewrite Hl. split.
    + intros H. destruct (proj1 IH) as (k & Hk & ->); [lia|]. exists (Z.succ k). split; [lia|].
      by rewrite Z.pow_succ_r.
    + intros (k & Hk & Heq). rewrite (proj2 IH); [done|]. destruct (decide (k = 0)) as [->|]; [simpl in Heq; lia|].
      exists (k - 1). split; [lia|]. replace k with (Z.succ (k - 1)) in Heq by lia.
      rewrite Z.pow_succ_r in Heq by lia. lia.
  - split; [|done]. intros _. exists 0. done.
Qed.

Lemma pow2_ge1_spec q :
  is_power_of_two_ge1 q = true <->
  (exists k : Z, (0 <= k)%Z /\ inject_Z (2 ^ k) <= q /\ q <= inject_Z (2 ^ k) + (1 # 100000))%Q.
Proof.
  unfold is_power_of_two_ge1. destruct (Qle_bool q 1) eqn:E; cbn [negb].
  - apply Qle_bool_iff in E. rewrite Qeq_bool_iff. split.
    + intros H. exists 0. split; [lia|]. rewrite H. change (inject_Z (2 ^ 0)) with 1%Q. lra.
    + intros (k & Hk & H1 & H2).
      assert (H : (1 <= inject_Z (2 ^ k))%Q).
      { change 1%Q with (inject_Z 1). rewrite <- Zle_Qle. pose proof (Z.pow_pos_nonneg 2 k); lia. }
      lra.
  - assert (Hq : (1 < q)%Q).
    { apply Qnot_le_lt. intros H. apply Qle_bool_iff in H. congruence. }
    pose proof (Qfloor_le q) as Hf1. pose proof (Qlt_floor q) as Hf2.
    assert (Hf0 : 1 <= Qfloor q).
    { assert (H : (inject_Z 1 <= q)%Q) by (change (inject_Z 1) with 1%Q; lra).
      apply Qfloor_resp_le in H. by rewrite Qfloor_Z in H. }
    assert (Hinj : (inject_Z (Qfloor q + 1) == inject_Z (Qfloor q) + 1)%Q) by (by rewrite inject_Z_plus).
    rewrite Hinj in Hf2.
    destruct (Qle_bool (Qabs (q - inject_Z (Qfloor q))) (1 # 100000)) eqn:E2; cbn [negb].
    + apply Qle_bool_iff in E2. rewrite Qabs_pos in E2 by lra.
      destruct (Qfloor q =? 0) eqn:E3; [lia|]. cbn [negb andb].
      rewrite Z.eqb_eq. rewrite land_pow2 by lia. split.
      * intros (k & Hk & Heq). exists k. rewrite <- Heq. split; [done|]. lra.
      * intros (k & Hk & H1 & H2). exists k. split; [done|].
        assert (2 ^ k <= Qfloor q) by (rewrite <- (Qfloor_Z (2 ^ k)); by apply Qfloor_resp_le).
        assert (Qfloor q < 2 ^ k + 1); [|lia].
        rewrite Zlt_Qlt. rewrite inject_Z_plus. change (inject_Z 1) with 1%Q. lra.
    + assert (E2' : ~ (q - inject_Z (Qfloor q) <= 1 # 100000)%Q).
      { intros H. rewrite <- (Qabs_pos (q - inject_Z (Qfloor q))) in H by lra. apply Qle_bool_iff in H. congruence. }
      split; [done|]. intros (k & Hk & H1 & H2). exfalso. apply E2'.
      assert (2 ^ k <= Qfloor q) by (rewrite <- (Qfloor_Z (2 ^ k)); by apply Qfloor_resp_le).
      assert (inject_Z (2 ^ k) <= inject_Z (Qfloor q))%Q by (by rewrite <- Zle_Qle). lra.
Qed.

Lemma rint_int z : rint (inject_Z z) = z.
Proof.
  unfold rint. rewrite Qfloor_Z.
  assert (H : (inject_Z z - inject_Z z == 0)%Q) by lra.
  destruct (Qcompare (inject_Z z - inject_Z z) (1 # 2)) eqn:E; [|done|].
  - apply Qeq_alt in E. lra.
  - apply Qgt_alt in E. lra.
Qed.

Lemma is_pow2_ge1 q : (1 <= q)%Q -> is_power_of_two q = is_power_of_two_ge1 q.
Proof.
  intros H. unfold is_power_of_two. destruct (Qle_bool q 1) eqn:E; cbn [negb]; [|done].
  apply Qle_bool_iff in E. assert (Heq : (q == 1)%Q) by lra.
  assert (Hb : Qeq_bool q 1 = true) by (by apply Qeq_bool_iff).
  rewrite Hb. unfold is_power_of_two_ge1. rewrite (proj2 (Qle_bool_iff q 1)) by lra. by rewrite Hb.
Qed.
Lemma is_pow2_proper_ge1 q q' : (q == q')%Q -> is_power_of_two_ge1 q = is_power_of_two_ge1 q'.
Proof.
  intros H. apply eq_true_iff_eq. rewrite !pow2_ge1_spec.
  split; intros (k & H1 & H2 & H3); exists k; (split; [done|split; lra]).
Qed.

Lemma pow2_int n : 0 < n -> is_power_of_two (inject_Z n) = true <-> exists k, 0 <= k /\ n = 2 ^ k.
Proof.
  intros Hn. rewrite is_pow2_ge1.
  2: { change 1%Q with (inject_Z 1). rewrite <- Zle_Qle. lia. }
  rewrite pow2_ge1_spec. split.
  - intros (k & Hk & H1 & H2). exists k. split; [done|]. rewrite <- Zle_Qle in H1.
    assert (n < 2 ^ k + 1); [|lia]. rewrite Zlt_Qlt, inject_Z_plus. change (inject_Z 1) with 1%Q. lra.
  - intros (k & Hk & ->). exists k. split; [done|]. lra.
Qed.

Lemma pow2_inv n : 0 < n -> is_power_of_two (/ inject_Z n) = true <-> exists k, 0 <= k /\ n = 2 ^ k.
Proof.
  intros Hn.
  assert (Hp : (0 < inject_Z n)%Q) by (change 0%Q with (inject_Z 0); rewrite <- Zlt_Qlt; lia).
  assert (Hip : (0 < / inject_Z n)%Q) by (by apply Qinv_lt_0_compat).
  assert (H1n : (1 <= inject_Z n)%Q) by (change 1%Q with (inject_Z 1); rewrite <- Zle_Qle; lia).
  assert (Hone : (inject_Z n * / inject_Z n == 1)%Q) by (field; lra).
  assert (Hle : (/ inject_Z n <= 1)%Q) by nra.
  unfold is_power_of_two. rewrite (proj2 (Qle_bool_iff _ _) Hle). cbn [negb].
  destruct (Qeq_bool (/ inject_Z n) 1) eqn:E.
  - apply Qeq_bool_iff in E. split; [|done]. intros _. exists 0. split; [lia|].
    assert (Hq : (inject_Z n == inject_Z 1)%Q) by (change (inject_Z 1) with 1%Q; nra).
    unfold Qeq in Hq. simpl in Hq. lia.
  - assert (E3 : Qle_bool (/ inject_Z n) 0 = false).
    { destruct (Qle_bool _ 0) eqn:E3; [|done]. apply Qle_bool_iff in E3. lra. }
    rewrite E3. cbn [negb]. rewrite <- (pow2_int n Hn), is_pow2_ge1 by done.
    assert (Hii : (/ / inject_Z n == inject_Z n)%Q) by apply Qinv_involutive.
    assert (Hr : rint (/ / inject_Z n) = n) by (rewrite (rint_proper _ _ Hii); apply rint_int).
    rewrite Hr. destruct (negb _); [done|]. by rewrite (is_pow2_proper_ge1 _ _ Hii).
Qed.

(** ** Index arithmetic *)
Lemma strides_cons s shape :
  strides (s :: shape) = fold_right Z.mul 1 shape :: strides shape.
Proof.
  revert s. induction shape as [|s1 shape IH]; intros s; [done|].
  change (strides (s :: s1 :: shape)) with
    (match strides (s1 :: shape) with z :: _ => z * s1 :: strides (s1 :: shape) | [] => 1 :: strides (s1 :: shape) end).
  rewrite (IH s1). cbn [fold_right]. f_equal. lia.
Qed.
Lemma prod_pos shape : Forall (fun s => 0 < s) shape -> 0 < fold_right Z.mul 1 shape.
Proof. induction 1; cbn [fold_right]; lia. Qed.

Lemma unravel_spec shape : forall i,
  Forall (fun s => 0 < s) shape -> 0 <= i < fold_right Z.mul 1 shape ->
  in_shape shape (my_unravel_index i shape) /\ row_major shape (my_unravel_index i shape) = i.
Proof.
  unfold my_unravel_index, in_shape. induction shape as [|s shape IH]; intros i Hs Hi.
  - cbn in *. split; [constructor|lia].
  - inversion Hs as [|? ? Hs0 Hs']; subst. rewrite strides_cons. cbn [unravel_loop row_major].
    pose proof (prod_pos shape Hs') as Hp. set (w := fold_right Z.mul 1 shape) in *.
    cbn [fold_right] in Hi. fold w in Hi.
    assert (Hm : 0 <= i mod w < w) by (apply Z.mod_pos_bound; lia).
    destruct (IH (i mod w) Hs' Hm) as [H1 H2]. split.
    + constructor; [|done]. pose proof (Z.div_mod i w). nia.
    + rewrite H2. pose proof (Z.div_mod i w). lia.
Qed.
Lemma row_major_range shape c :
  in_shape shape c -> Forall (fun s => 0 < s) shape /\ 0 <= row_major shape c < fold_right Z.mul 1 shape.
Proof.
  induction 1 as [|s i shape c Hi H [IH1 IH2]]; cbn [row_major fold_right]; [split; [constructor|lia]|].
  split; [constructor; [lia|done]|]. nia.
Qed.
Lemma row_major_inj shape c c' :
  in_shape shape c -> in_shape shape c' -> row_major shape c = row_major shape c' -> c = c'.
Proof.
  intros H. revert c'. induction H as [|s i shape c Hi H IH]; intros c' H' Heq.
  - by inversion H'.
  - inversion H' as [|? i' ? c'' Hi' H'']; subst. cbn [row_major] in Heq.
    destruct (row_major_range _ _ H) as [_ R1]. destruct (row_major_range _ _ H'') as [_ R2].
    assert (i = i') as -> by nia. f_equal. apply IH; [done|lia].
Qed.
Lemma unravel_row_major shape c :
  in_shape shape c -> my_unravel_index (row_major shape c) shape = c.
Proof.
  intros H. destruct (row_major_range _ _ H) as [H1 H2].
  destruct (unravel_spec shape _ H1 H2) as [H3 H4]. by eapply row_major_inj.
Qed.
