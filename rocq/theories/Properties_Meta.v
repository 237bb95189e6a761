(** Properties of what a grid records about its data: C48, C50-C53. *)
From Verif Require Import Py Nd Numpy Point Bin Algorithms Tile Time Meta Disk Grid GridRun GridQuery GridOps Export
  Spec TileExec GridExec Samples GridSamples PyFacts TimeFacts MetaFacts NameFacts.
Open Scope Z_scope.

(** Three calls of add_points: two succeed, the one in between is refused. *)
Definition call_1 := AddArgs "a__1" ["f1"; "f2"] (Some (CrsCode 26917)) None (Some (1600000000 + (1 # 2)))%Q (Some 1600000100%Q) "t1".
Definition call_x := AddArgs "b__1" [] (Some (CrsCode 26918)) None (Some 100%Q) None "t2".
Definition call_2 := AddArgs "a__2" [] (Some (CrsCode 26917)) None (Some 1500000000%Q) (Some 1500000050%Q) "t3".
Definition rec_1 := st_of (g_add_points sr_ops (create_sr 8 false false true) (GoodData pts_one) call_1).
Definition rec_x := st_of (g_add_points sr_ops rec_1 (GoodData pts_one) call_x).
Definition rec_2 := st_of (g_add_points sr_ops rec_x (GoodData pts_two) call_2).
Example rec_1_calls : add_calls sr_ops env_s (create_sr 8 false false true) rec_1 [call_1] [call_1] [].
Proof. apply (AC_add _ _ _ _ [] [] [] pts_one call_1); [apply AC_new|by vm_compute]. Qed.
Example rec_2_calls : add_calls sr_ops env_s (create_sr 8 false false true) rec_2 [call_1; call_2] [call_1; call_2] [call_x].
Proof.
  apply (AC_add _ _ _ rec_x [call_1] [call_1] [call_x] pts_two call_2); [|by vm_compute].
  refine (AC_add_failed _ _ _ rec_1 [call_1] [call_1] [] (GoodData pts_one) call_x _ _).
  - apply rec_1_calls.
  - intros H. vm_compute in H. discriminate.
Qed.

(** ** C48 *)
(** An epsg code other than the recorded one (or text that is no code) is refused and changes nothing. *)
Theorem C48_clash {T} (O : tile_ops T) g inp a z c :
  m_epsg (g_meta g) = Some z -> z <> 0 -> a_crs a = Some c -> c <> CrsCode z -> c <> CrsCode 0 -> c <> CrsText "" ->
  g_add_points O g inp a = Out g [] (Some ValueError).
Proof.
  intros Hz Hnz Ha Hne H0 Hs. apply (clash_refused O g inp a z c Hz Hnz Ha); [|done].
  destruct c as [w|s]; cbn; apply negb_true_iff; [apply Z.eqb_neq; congruence|apply bool_decide_eq_false; congruence].
Qed.
Print Assumptions C48_clash.
Example C48_clash_case : g_add_points sr_ops rec_1 (GoodData pts_one) call_x = Out rec_1 [] (Some ValueError).
Proof. apply (C48_clash sr_ops rec_1 (GoodData pts_one) call_x 26917 (CrsCode 26918)); [by vm_compute|..]; done. Qed.
(** All the calls that returned normally and gave a code gave the same one, which is the recorded one. *)
Theorem C48_one_crs {T} (O : tile_ops T) e g0 g held done failed a b z w :
  m_epsg (g_meta g0) = None -> add_calls O e g0 g held done failed -> a ∈ done -> b ∈ done ->
  a_crs a = Some (CrsCode z) -> z <> 0 -> a_crs b = Some (CrsCode w) -> w <> 0 -> z = w /\ m_epsg (g_meta g) = Some z.
Proof.
  intros H0 H Ha Hb Ea Hz Eb Hw.
  assert (Hc : forall a z, a_crs a = Some (CrsCode z) -> z <> 0 -> code_of a = Some z).
  { intros a' z' E Hn. unfold code_of. rewrite E. unfold truthy_z. by rewrite (proj2 (Z.eqb_neq z' 0) Hn). }
  assert (H0' : truthy_z (m_epsg (g_meta g0)) = None) by (by rewrite H0).
  pose proof (calls_epsg O e g0 g held done failed H0' H a z Ha (Hc _ _ Ea Hz)) as E1.
  pose proof (calls_epsg O e g0 g held done failed H0' H b w Hb (Hc _ _ Eb Hw)) as E2. split; congruence.
Qed.
Print Assumptions C48_one_crs.
Example C48_one_crs_case : m_epsg (g_meta rec_2) = Some 26917.
Proof.
  apply (C48_one_crs sr_ops env_s (create_sr 8 false false true) rec_2 _ _ _ call_1 call_2 26917 26917 eq_refl rec_2_calls); try done; repeat constructor.
Qed.

(** ** C51 *)
Theorem C51_round_trip t :
  0 <= t < 253402300800 ->
  exists s, utc_seconds_to_formatted_string t = Ok s /\ formatted_string_to_utc_seconds s = Ok t.
Proof.
  intros Ht. destruct (time_formats t ltac:(lia)) as [s Hs]. exists s. split; [done|]. by apply time_round_trip; [lia|].
Qed.
Print Assumptions C51_round_trip.
(** 253402300799 is the last second of the year 9999. *)
Example C51_last : utc_seconds_to_formatted_string 253402300799 = Ok "9999-12-31T23:59:59".
Proof. by vm_compute. Qed.
Example C51_leap : utc_seconds_to_formatted_string 951827696 = Ok "2000-02-29T12:34:56".
Proof. by vm_compute. Qed.

(** ** C50 *)
(** The recorded time, when the calls that returned normally gave any non-zero time, is at most (at least)
    each of these, and was given by some call. *)
Theorem C50_min_bounds {T} (O : tile_ops T) e g0 g held done failed :
  m_min_time (g_meta g0) = "" -> add_calls O e g0 g held done failed ->
  (forall a z, a ∈ done ++ failed -> gave (a_min_time a) z -> four_digit_year z) ->
  (exists a z, a ∈ done /\ gave (a_min_time a) z) ->
  exists v, formatted_string_to_utc_seconds (m_min_time (g_meta g)) = Ok v /\
    (exists a, a ∈ done ++ failed /\ gave (a_min_time a) v) /\ forall a z, a ∈ done -> gave (a_min_time a) z -> v <= z.
Proof.
  intros H0 H Hy (a & z & Ha & Hz). destruct (calls_min O e g0 g held done failed H0 H Hy) as [[_ Hn]|(v & H1 & _ & H3)].
  - exfalso. exact (Hn a z Ha Hz).
  - by exists v.
Qed.
Print Assumptions C50_min_bounds.
Theorem C50_max_bounds {T} (O : tile_ops T) e g0 g held done failed :
  m_max_time (g_meta g0) = "" -> add_calls O e g0 g held done failed ->
  (forall a z, a ∈ done ++ failed -> gave (a_max_time a) z -> four_digit_year z) ->
  (exists a z, a ∈ done /\ gave (a_max_time a) z) ->
  exists v, formatted_string_to_utc_seconds (m_max_time (g_meta g)) = Ok v /\
    (exists a, a ∈ done ++ failed /\ gave (a_max_time a) v) /\ forall a z, a ∈ done -> gave (a_max_time a) z -> z <= v.
Proof.
  intros H0 H Hy (a & z & Ha & Hz). destruct (calls_max O e g0 g held done failed H0 H Hy) as [[_ Hn]|(v & H1 & _ & H3 & H4)].
  - exfalso. exact (Hn a z Ha Hz).
  - exists v. split; [done|]. split; [done|]. intros b w Hb Hw. specialize (H4 b w Hb Hw). lia.
Qed.
Print Assumptions C50_max_bounds.
(** When no call raised, the recorded times are the least and the greatest given. *)
Theorem C50_least {T} (O : tile_ops T) e g0 g held done :
  m_min_time (g_meta g0) = "" -> add_calls O e g0 g held done [] ->
  (forall a z, a ∈ done -> gave (a_min_time a) z -> four_digit_year z) ->
  (exists a z, a ∈ done /\ gave (a_min_time a) z) ->
  exists v, formatted_string_to_utc_seconds (m_min_time (g_meta g)) = Ok v /\
    (exists a, a ∈ done /\ gave (a_min_time a) v) /\ forall a z, a ∈ done -> gave (a_min_time a) z -> v <= z.
Proof.
  intros H0 H Hy Hz. pose proof (C50_min_bounds O e g0 g held done [] H0 H) as HB. rewrite app_nil_r in HB. by apply HB.
Qed.
Print Assumptions C50_least.
Theorem C50_greatest {T} (O : tile_ops T) e g0 g held done :
  m_max_time (g_meta g0) = "" -> add_calls O e g0 g held done [] ->
  (forall a z, a ∈ done -> gave (a_max_time a) z -> four_digit_year z) ->
  (exists a z, a ∈ done /\ gave (a_max_time a) z) ->
  exists v, formatted_string_to_utc_seconds (m_max_time (g_meta g)) = Ok v /\
    (exists a, a ∈ done /\ gave (a_max_time a) v) /\ forall a z, a ∈ done -> gave (a_max_time a) z -> z <= v.
Proof.
  intros H0 H Hy Hz. pose proof (C50_max_bounds O e g0 g held done [] H0 H) as HB. rewrite app_nil_r in HB. by apply HB.
Qed.
Print Assumptions C50_greatest.
Example C50_case : m_min_time (g_meta rec_2) = "2017-07-14T02:40:00" /\ m_max_time (g_meta rec_2) = "2020-09-13T12:28:20" /\
  formatted_string_to_utc_seconds (m_min_time (g_meta rec_2)) = Ok 1500000000 /\
  formatted_string_to_utc_seconds (m_max_time (g_meta rec_2)) = Ok 1600000100.
Proof. by vm_compute. Qed.
Example C50_hypothesis : gave (a_min_time call_1) 1600000000 /\ four_digit_year 1600000000.
Proof. split; [|by vm_compute]. eexists. split; [reflexivity|]. split; [by vm_compute|]. left. by vm_compute. Qed.

(** ** C52 *)
Theorem C52_entries m : exists es,
  Forall2 entry_for (dkeys (m_container m)) es /\ m_unique_container_entries m = first_seen es.
Proof.
  exists (map entry_of (dkeys (m_container m))). split; [|apply add_entries].
  apply Forall2_fmap_r. apply Forall_Forall2_diag, Forall_true. apply entry_of_spec.
Qed.
Print Assumptions C52_entries.
(** There is only one entry for a name. *)
Theorem C52_entry_unique k p q : entry_for k p -> entry_for k q -> p = q.
Proof. apply entry_for_unique. Qed.
Print Assumptions C52_entry_unique.
Example C52_case : m_unique_container_entries (g_meta rec_2) = ["a"] /\
  map entry_of ["x__1"; "x"; "a__b__c"; "a___b"; "__"] = ["x"; "x"; "a__b__c"; "a"; ""].
Proof. by vm_compute. Qed.

(** ** C53: false; the lines of the container 'a' are shown as those of 'a_0'. *)
Definition call_a := AddArgs "a" ["f1"] None None None None "t1".
Definition call_a0 := AddArgs "a_0" ["f2"] None None None None "t2".
Definition att_1 := st_of (g_add_points sr_ops (create_sr 8 false false true) (GoodData pts_one) call_a).
Definition att_2 := st_of (g_add_points sr_ops att_1 (GoodData pts_two) call_a0).
Theorem C53_attribution_refuted :
  exists g held done a d v, add_calls sr_ops env_s (create_sr 8 false false true) g held done [] /\ a ∈ held /\
    m_return_attribution (g_meta g) = Ok d /\ dget d (a_container a) = Some v /\ v.2 <> lines_of a.
Proof.
  exists att_2, [call_a; call_a0], [call_a; call_a0], call_a, [("a", ("t2", ["f2"])); ("a_0", ("t2", ["f2"]))], ("t2", ["f2"]).
  split; [|split; [constructor|by vm_compute]].
  apply (AC_add _ _ _ att_1 [call_a] [call_a] [] pts_two call_a0); [|by vm_compute].
  apply (AC_add _ _ _ _ [] [] [] pts_one call_a); [apply AC_new|by vm_compute].
Qed.
Print Assumptions C53_attribution_refuted.
(** The lines are right for every container without a companion whose name has '_0' appended. *)
Theorem C53_attribution_partial {T} (O : tile_ops T) e g0 g held done failed a :
  m_container (g_meta g0) = [] -> m_timestamp (g_meta g0) = [] -> add_calls O e g0 g held done failed -> a ∈ held ->
  (forall b, b ∈ held ++ failed -> a_container b <> a_container a +:+ "_0") ->
  exists d, m_return_attribution (g_meta g) = Ok d /\ dget d (a_container a) = Some (a_now a, lines_of a).
Proof.
  intros H0 H0' H Ha Hn. destruct (calls_held O e g0 g held done failed H0 H0' H) as (H1 & H2 & _ & H4 & H5).
  destruct (H4 a Ha) as [E1 E2]. apply attribution_lookup; try done. intros Hi. destruct (H5 _ Hi) as (b & Hb & Eb). by apply (Hn b Hb).
Qed.
Print Assumptions C53_attribution_partial.
Example C53_case : m_return_attribution (g_meta rec_2) = Ok [("a__1", ("t1", ["f1"; "f2"])); ("a__2", ("t3", ["Unknown"]))].
Proof. by vm_compute. Qed.
