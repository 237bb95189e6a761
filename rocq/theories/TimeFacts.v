(** The calendar and the time strings. *)
From Coq Require Import Ascii.
From Verif Require Import Py Time.
Open Scope Z_scope.
Ltac Zify.zify_post_hook ::= Z.div_mod_to_equations.

(** ** Ordinals and dates *)
Definition month_day_ok (leap : bool) (n : Z) : bool :=
  let y := if leap then 4 else 1 in
  let '(m, d) := month_day y n in
  (1 <=? m) && (m <=? 12) && (1 <=? d) && (d <=? days_in_month y m) && (days_before_month y m + d =? n + 1).
Lemma month_day_all : forallb (fun n => month_day_ok true (Z.of_nat n) && month_day_ok false (Z.of_nat n)) (seq 0 365) = true.
Proof. by vm_compute. Qed.
Lemma leap_before y m : days_before_month y m = days_before_month (if is_leap y then 4 else 1) m.
Proof. unfold days_before_month. by destruct (is_leap y). Qed.
Lemma leap_in y m : days_in_month y m = days_in_month (if is_leap y then 4 else 1) m.
Proof. unfold days_in_month. by destruct (is_leap y). Qed.
Lemma month_day_spec y n m d :
  0 <= n < 365 -> month_day y n = (m, d) ->
  1 <= m <= 12 /\ 1 <= d <= days_in_month y m /\ days_before_month y m + d = n + 1.
Proof.
  intros Hn Hmd. pose proof month_day_all as HA. rewrite forallb_forall in HA.
  specialize (HA (Z.to_nat n) ltac:(apply in_seq; lia)). rewrite Z2Nat.id in HA by lia.
  apply andb_prop in HA as [H1 H2].
  assert (H : month_day_ok (is_leap y) n = true) by (by destruct (is_leap y)). clear H1 H2.
  unfold month_day_ok in H. unfold month_day in *. cbv zeta in *. rewrite (leap_before y) in *.
  rewrite (leap_in y). set (y' := if is_leap y then 4 else 1) in *.
  assert (HL : is_leap y' = is_leap y) by (unfold y'; by destruct (is_leap y)).
  injection Hmd as <- <-.
  rewrite (leap_before y). fold y'.
  repeat (apply andb_prop in H as [H ?]). lia.
Qed.

Lemma ord_to_ymd_spec o y m d :
  1 <= o -> ord_to_ymd o = (y, m, d) ->
  1 <= y /\ 1 <= m <= 12 /\ 1 <= d <= days_in_month y m /\ ymd_to_ord y m d = o.
Proof.
  intros Ho. unfold ord_to_ymd. cbv zeta.
  set (n := o - 1). set (a := n / 146097). set (r1 := n mod 146097). set (b := r1 / 36524). set (r2 := r1 mod 36524).
  set (c := r2 / 1461). set (r3 := r2 mod 1461). set (k := r3 / 365). set (r4 := r3 mod 365).
  assert (E : n = 146097 * a + 36524 * b + 1461 * c + 365 * k + r4) by (subst a r1 b r2 c r3 k r4; lia).
  assert (Ra : 0 <= a) by (subst a; lia). assert (Rb : 0 <= b <= 4) by (subst b r1; lia).
  assert (Rc : 0 <= c <= 24) by (subst c r2; lia). assert (Rk : 0 <= k <= 4) by (subst k r3; lia).
  assert (R4 : 0 <= r4 < 365) by (subst r4; lia).
  assert (Sb : b = 4 -> c = 0 /\ k = 0 /\ r4 = 0) by (subst b r1 r2 c r3 k r4; lia).
  assert (Sk : k = 4 -> r4 = 0) by (subst k r3 r4; lia).
  assert (Sc : c = 24 -> k <= 3) by (subst k r3 c r2; lia).
  assert (En : n = o - 1) by done.
  clearbody n a r1 b r2 c r3 k r4.
  assert (Hsp : (k =? 4) || (b =? 4) = true -> (k = 4 /\ b <= 3 /\ c <= 23 /\ r4 = 0) \/ (b = 4 /\ c = 0 /\ k = 0 /\ r4 = 0)).
  { intros Hor. apply orb_prop in Hor as [?%Z.eqb_eq|?%Z.eqb_eq]; [left|right; tauto].
    assert (b <> 4) by (intros ?; lia). assert (c <> 24) by (intros ?; lia). lia. }
  destruct ((k =? 4) || (b =? 4)) eqn:Esp.
  - specialize (Hsp eq_refl). intros [= <- <- <-]. replace (a * 400 + b * 100 + c * 4 + k + 1 - 1) with (a * 400 + b * 100 + c * 4 + k) by lia.
    set (Y := a * 400 + b * 100 + c * 4 + k).
    assert (HL : is_leap Y = true).
    { unfold is_leap. subst Y. destruct Hsp as [(-> & ? & ? & ->)|(-> & -> & -> & ->)]; lia. }
    assert (HY : days_before_year Y = n - 365).
    { unfold days_before_year. subst Y. destruct Hsp as [(-> & ? & ? & ->)|(-> & -> & -> & ->)]; lia. }
    split; [subst Y; lia|]. split; [lia|].
    unfold ymd_to_ord. rewrite leap_in, (leap_before Y), HL, HY. change (days_in_month 4 12) with 31. change (days_before_month 4 12) with 335. lia.
  - apply orb_false_iff in Esp as [K4 B4]. set (Y := a * 400 + b * 100 + c * 4 + k + 1).
    assert (HY : days_before_year Y = n - r4) by (unfold days_before_year; subst Y; lia).
    destruct (month_day Y r4) as [m' d'] eqn:Emd. cbn [fst snd]. intros [= <- <- <-].
    destruct (month_day_spec _ _ _ _ R4 Emd) as (H1 & H2 & H3).
    split; [subst Y; lia|]. split; [done|]. split; [done|]. unfold ymd_to_ord. lia.
Qed.

(** ** Digits *)
Lemma read_digit_digit n : 0 <= n < 10 -> read_digit (digit n) = Some n.
Proof.
  intros Hn. unfold read_digit, digit. rewrite Z.mod_small by lia. rewrite nat_ascii_embedding by lia.
  cbv zeta. rewrite Nat2Z.inj_add, Z2Nat.id by lia. change (Z.of_nat 48) with 48.
  destruct (_ && _) eqn:E; [f_equal; lia|]. apply andb_false_iff in E as [?|?]; lia.
Qed.
Lemma digit_mod n : digit n = digit (n mod 10).
Proof. unfold digit. by rewrite Z.mod_mod by lia. Qed.
Lemma read_pad2 n : 0 <= n < 100 -> read_number 0 (pad2 n) = Some n.
Proof.
  intros Hn. unfold pad2. cbn [read_number]. rewrite (digit_mod n). rewrite !read_digit_digit by lia. cbn [read_number]. f_equal. lia.
Qed.
Lemma read_pad4 n : 0 <= n < 10000 -> read_number 0 (pad4 n) = Some n.
Proof.
  intros Hn. unfold pad4. cbn [read_number]. rewrite (digit_mod n), (digit_mod (n / 10)), (digit_mod (n / 100)).
  rewrite !read_digit_digit by lia. cbn [read_number]. f_equal. lia.
Qed.
Lemma is_char_refl c : is_char c c = true.
Proof. unfold is_char. by rewrite decide_True. Qed.
Lemma ascii_string l : list_ascii_of_string (string_of_list_ascii l) = l.
Proof. apply list_ascii_of_string_of_list_ascii. Qed.

Lemma time_round_trip t s :
  - (719162 * 86400) <= t -> utc_seconds_to_formatted_string t = Ok s -> formatted_string_to_utc_seconds s = Ok t.
Proof.
  intros Ht. unfold utc_seconds_to_formatted_string.
  destruct (ord_to_ymd (t / 86400 + epoch_ord)) as [[y m] d] eqn:E.
  assert (Ho : 1 <= t / 86400 + epoch_ord) by (unfold epoch_ord; lia).
  destruct (ord_to_ymd_spec _ _ _ _ Ho E) as (H1 & H2 & H3 & H4). cbv zeta.
  set (sec := t mod 86400). assert (Hs : 0 <= sec < 86400) by (subst sec; lia).
  assert (Et : t = (t / 86400) * 86400 + sec) by (subst sec; lia). clearbody sec.
  destruct ((1 <=? y) && (y <=? 9999)) eqn:Ey; [|done].
  assert (Hd : days_in_month y m <= 99).
  { unfold days_in_month. assert (m = 1 \/ m = 2 \/ m = 3 \/ m = 4 \/ m = 5 \/ m = 6 \/ m = 7 \/ m = 8 \/ m = 9 \/ m = 10 \/ m = 11 \/ m = 12) as Hm by lia.
    destruct Hm as [->|[->|[->|[->|[->|[->|[->|[->|[->|[->|[->| ->]]]]]]]]]]]; destruct (is_leap y); by vm_compute. }
  match goal with |- Ok (string_of_list_ascii ?x) = _ -> _ => set (l := x) end.
  intros Hok. assert (s = string_of_list_ascii l) as -> by congruence.
  unfold formatted_string_to_utc_seconds. rewrite ascii_string. subst l.
  pose proof (read_pad4 y ltac:(lia)) as Py. pose proof (read_pad2 m ltac:(lia)) as Pm. pose proof (read_pad2 d ltac:(lia)) as Pd.
  pose proof (read_pad2 (sec / 3600) ltac:(lia)) as Ph. pose proof (read_pad2 (sec mod 3600 / 60) ltac:(lia)) as Pn.
  pose proof (read_pad2 (sec mod 60) ltac:(lia)) as Ps.
  unfold pad2, pad4 in *. cbn [app]. rewrite Py, Pm, Pd, Ph, Pn, Ps. rewrite !is_char_refl.
  match goal with |- (if ?x then _ else _) = _ => destruct x eqn:Eg end.
  - f_equal. rewrite H4. assert (Hhms : sec / 3600 * 3600 + sec mod 3600 / 60 * 60 + sec mod 60 = sec) by (clear; lia).
    replace (t / 86400 + epoch_ord - epoch_ord) with (t / 86400) by (clear; lia).
    transitivity (t / 86400 * 86400 + sec); [|done]. rewrite <- Hhms at 4. ring.
  - repeat (apply andb_false_iff in Eg as [Eg|Eg]); try done; lia.
Qed.

Lemma last_year o y m d : 1 <= o <= 3652059 -> ord_to_ymd o = (y, m, d) -> 1 <= y <= 9999.
Proof.
  intros Ho E. destruct (ord_to_ymd_spec o y m d ltac:(lia) E) as (H1 & H2 & H3 & H4). split; [done|].
  destruct (Z.le_gt_cases y 9999) as [?|Hy]; [done|]. exfalso.
  assert (HB : 3652059 <= days_before_year y) by (unfold days_before_year; lia).
  assert (HM : 0 <= days_before_month y m).
  { unfold days_before_month. assert (0 <= default 0 (month_starts !! Z.to_nat (m - 1))).
    { destruct (month_starts !! Z.to_nat (m - 1)) as [v|] eqn:Ev; cbn; [|lia]. apply elem_of_list_lookup_2 in Ev.
      apply elem_of_list_In in Ev. cbn in Ev. intuition lia. }
    destruct (_ && _); lia. }
  unfold ymd_to_ord in H4. lia.
Qed.
Lemma time_formats t : - 62135596800 <= t < 253402300800 -> exists s, utc_seconds_to_formatted_string t = Ok s.
Proof.
  intros Ht. unfold utc_seconds_to_formatted_string. destruct (ord_to_ymd (t / 86400 + epoch_ord)) as [[y m] d] eqn:E.
  apply last_year in E; [|unfold epoch_ord; lia].
  replace ((1 <=? y) && (y <=? 9999)) with true by (symmetry; apply andb_true_intro; lia). by eexists.
Qed.
