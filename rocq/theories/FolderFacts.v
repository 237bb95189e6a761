(** Facts about paths and folders. *)
From Coq Require Import Ascii.
From Verif Require Import Py Convenience FolderSpec PyFacts NameFacts.

Lemma look_special f p : p = [] \/ p = ["/"] -> look f p = Some TDir.
Proof. intros H. unfold look. by rewrite decide_True. Qed.
Lemma look_get f p : ~ (p = [] \/ p = ["/"]) -> look f p = dget f p.
Proof. intros H. unfold look. by rewrite decide_False. Qed.
Lemma look_None f p : look f p = None -> dget f p = None /\ ~ (p = [] \/ p = ["/"]).
Proof. unfold look. destruct (decide _); [done|]. done. Qed.
Lemma get_look f p n : rooted f -> dget f p = Some n -> look f p = Some n.
Proof. intros R E. destruct (R p n E) as (A & B & _). rewrite look_get; [done|]. intros [|]; done. Qed.

Lemma rooted_up f p a q n : rooted f -> dget f (p ++ a :: q) = Some n -> look f p = Some TDir.
Proof.
  intros R. revert n. induction q as [|b q IH] using rev_ind; intros n E.
  - destruct (R _ _ E) as (_ & _ & H). by rewrite removelast_last in H.
  - destruct (R _ _ E) as (_ & _ & H). replace (p ++ a :: q ++ [b]) with ((p ++ a :: q) ++ [b]) in H by by rewrite <- app_assoc.
    rewrite removelast_last in H. unfold look in H. destruct (decide _) as [[D|D]|]; [by destruct p| |by eapply IH].
    destruct p as [|x p]; [by apply look_special; left|]. injection D as -> D. by destruct p.
Qed.

Lemma keeps_refl f : keeps f f.
Proof. by intros q n. Qed.
Lemma keeps_trans f g h : keeps f g -> keeps g h -> keeps f h.
Proof. intros A B q n E. by apply B, A. Qed.
Lemma adds_refl P f : adds P f f.
Proof. intros q n E. by left. Qed.
Lemma adds_trans P f g h : adds P f g -> adds P g h -> adds P f h.
Proof. intros A B q n E. destruct (B q n E) as [E'|]; [by apply A|by right]. Qed.
Lemma adds_mono (P Q : list string -> Prop) f g : (forall q, P q -> Q q) -> adds P f g -> adds Q f g.
Proof. intros H A q n E. destruct (A q n E) as [|[-> ?]]; [by left|right; auto]. Qed.
Lemma keeps_look f g p n : keeps f g -> look f p = Some n -> look g p = Some n.
Proof. unfold look. intros K. destruct (decide _); [done|apply K]. Qed.

Lemma mkdir_at_spec f p f' x : rooted f -> mkdir_at f p = (f', x) ->
  rooted f' /\ keeps f f' /\ adds (fun q => q = p) f f' /\ (x = None -> look f p = None /\ empty_folder f' p) /\ (x <> None -> f' = f).
Proof.
  intros R. unfold mkdir_at. destruct (look f p) as [n|] eqn:E.
  { intros [= <- <-]. split; [done|]. split; [apply keeps_refl|]. split; [apply adds_refl|]. done. }
  destruct (look f (removelast p)) as [[|c]|] eqn:E2; intros [= <- <-].
  2,3: split; [done|]; split; [apply keeps_refl|]; split; [apply adds_refl|]; done.
  destruct (look_None _ _ E) as [G S].
  assert (K : keeps f (dset f p TDir)). { intros q n Hq. rewrite dget_dset_ne; [done|]. intros ->. congruence. }
  split; [|split; [done|]; split].
  - intros q n. rewrite dget_dset. destruct (decide (q = p)) as [->|].
    + intros [= <-]. split; [tauto|]. split; [tauto|]. by eapply keeps_look.
    + intros Hq. destruct (R _ _ Hq) as (A & B & C). split; [done|]. split; [done|]. by eapply keeps_look.
  - intros q n. rewrite dget_dset. destruct (decide (q = p)) as [->|]; [|by left]. intros [= <-]. by right.
  - split; [|done]. intros _. split; [done|]. split.
    + rewrite look_get by done. apply dget_dset_eq.
    + intros a q. rewrite dget_dset. destruct (decide _) as [D|].
      * apply (f_equal length) in D. rewrite app_length in D. cbn in D. lia.
      * destruct (dget f (p ++ a :: q)) eqn:Hq; [|done]. apply (rooted_up f) in Hq; [congruence|done].
Qed.

Lemma makedirs_step f n up : makedirs_rev f (n :: up) =
  let '(f1, x) := match look f (reverse up) with Some _ => (f, None) | None => makedirs_rev f up end in
  match x with
  | Some y => if decide (y = FileExistsError) then
                let '(f2, z) := mkdir_at f1 (reverse (n :: up)) in
                (f2, match look f2 (reverse (n :: up)) with Some TDir => None | _ => z end)
              else (f1, Some y)
  | None => let '(f2, z) := mkdir_at f1 (reverse (n :: up)) in
            (f2, match look f2 (reverse (n :: up)) with Some TDir => None | _ => z end)
  end.
Proof. done. Qed.
Lemma makedirs_rev_spec rp : forall f f' x, rooted f -> makedirs_rev f rp = (f', x) ->
  rooted f' /\ keeps f f' /\ adds (fun q => q `prefix_of` reverse rp) f f' /\ (x = None -> look f' (reverse rp) = Some TDir).
Proof.
  induction rp as [|n up IH]; intros f f' x R.
  { intros [= <- <-]. split; [done|]. split; [apply keeps_refl|]. split; [apply adds_refl|]. intros _. by apply look_special; left. }
  rewrite makedirs_step. destruct (match look f (reverse up) with Some _ => (f, None) | None => makedirs_rev f up end) as [f1 x1] eqn:E1.
  assert (H1 : rooted f1 /\ keeps f f1 /\ adds (fun q => q `prefix_of` reverse (n :: up)) f f1).
  { destruct (look f (reverse up)); [injection E1 as <- <-; split; [done|]; split; [apply keeps_refl|apply adds_refl]|].
    destruct (IH _ _ _ R E1) as (A & B & C & _). split; [done|]. split; [done|]. eapply adds_mono, C. intros q Hq. rewrite reverse_cons. by apply prefix_app_r. }
  destruct H1 as (R1 & K1 & A1).
  assert (H2 : forall f2 z, mkdir_at f1 (reverse (n :: up)) = (f2, z) ->
     rooted f2 /\ keeps f f2 /\ adds (fun q => q `prefix_of` reverse (n :: up)) f f2 /\ (z = None -> look f2 (reverse (n :: up)) = Some TDir)).
  { intros f2 z E. destruct (mkdir_at_spec _ _ _ _ R1 E) as (A & B & C & D & _). split; [done|]. split; [by eapply keeps_trans|].
    split; [eapply adds_trans; [done|]; eapply adds_mono, C; by intros q ->|]. intros Hz. by destruct (D Hz) as [_ [? _]]. }
  assert (H3 : (let '(f2, z) := mkdir_at f1 (reverse (n :: up)) in
            (f2, match look f2 (reverse (n :: up)) with Some TDir => None | _ => z end)) = (f', x) -> 
     rooted f' /\ keeps f f' /\ adds (fun q => q `prefix_of` reverse (n :: up)) f f' /\ (x = None -> look f' (reverse (n :: up)) = Some TDir)).
  { destruct (mkdir_at f1 (reverse (n :: up))) as [f2 z] eqn:E. destruct (H2 _ _ eq_refl) as (A & B & C & D). intros H. injection H as -> <-.
    split; [done|]. split; [done|]. split; [done|]. destruct (look f' (reverse (n :: up))) as [[|c]|]; [done| |]; intros Hz; by specialize (D Hz). }
  destruct x1 as [y|]; [destruct (decide _)|]; [apply H3| |apply H3]. intros [= <- <-]. split; [done|]. split; [done|]. split; done.
Qed.
Lemma reverse_prefix_last (q p : list string) n : q `prefix_of` p -> q `prefix_of` (p ++ [n]).
Proof. apply prefix_app_r. Qed.

(** When nothing on the way is a file, makedirs succeeds. *)
Lemma no_file_keep f g p q : adds q f g -> no_file_on f p -> no_file_on g p.
Proof.
  intros A N r c Hr E. unfold look in E. destruct (decide _) as [|D]; [done|]. destruct (A _ _ E) as [H|[H _]]; [|done].
  apply (N r c Hr). by rewrite look_get.
Qed.
Lemma makedirs_rev_ok rp : forall f, rooted f -> no_file_on f (reverse rp) -> exists f', makedirs_rev f rp = (f', None).
Proof.
  induction rp as [|n up IH]; intros f R N; [by exists f|]. rewrite makedirs_step.
  assert (N' : no_file_on f (reverse up)). { intros q c Hq. apply N. rewrite reverse_cons. by apply prefix_app_r. }
  assert (H : exists f1, match look f (reverse up) with Some _ => (f, None) | None => makedirs_rev f up end = (f1, None) /\
                rooted f1 /\ look f1 (reverse up) = Some TDir /\ no_file_on f1 (reverse (n :: up))).
  { destruct (look f (reverse up)) as [[|c]|] eqn:E.
    - exists f. done.
    - exfalso. by apply (N' (reverse up) c).
    - destruct (IH f R N') as [f1 E1]. exists f1. split; [done|]. destruct (makedirs_rev_spec _ _ _ _ R E1) as (A & B & C & D).
      split; [done|]. split; [by apply D|]. by eapply no_file_keep. }
  destruct H as (f1 & -> & R1 & L1 & N1). destruct (mkdir_at f1 (reverse (n :: up))) as [f2 z] eqn:E. exists f2. f_equal.
  unfold mkdir_at in E. destruct (look f1 (reverse (n :: up))) as [[|c]|] eqn:E2.
  - injection E as <- <-. by rewrite E2.
  - exfalso. by apply (N1 (reverse (n :: up)) c).
  - rewrite reverse_cons, removelast_last, L1 in E. injection E as <- <-. repeat case_match; done.
Qed.

(** ** Text of paths *)
Lemma split_slash_app l r : forall cur, split_slash cur (l ++ slash :: r) = split_slash cur l ++ split_slash [] r.
Proof. induction l as [|c l IH]; intros cur; [done|]. cbn [app split_slash]. destruct (Ascii.eqb c slash); [|apply IH]. cbn [app]. by rewrite IH. Qed.
Lemma split_slash_plain l : forall cur, ~ In slash l -> split_slash cur l = [cur ++ l].
Proof.
  induction l as [|c l IH]; intros cur N; cbn [split_slash]; [by rewrite app_nil_r|].
  destruct (Ascii.eqb c slash) eqn:E; [apply Ascii.eqb_eq in E as ->; destruct N; by left|].
  rewrite IH by (intros H; apply N; by right). by rewrite <- app_assoc.
Qed.
Lemma split_slash_first c l : forall cur, cur <> [] -> filter (fun l : list ascii => l <> []) (split_slash cur (c :: l)) <> [].
Proof.
  revert c. induction l as [|d l IH]; intros c cur Hc; cbn [split_slash].
  - destruct (Ascii.eqb c slash).
    + rewrite filter_cons_True by done. done.
    + rewrite filter_cons_True by (by destruct cur). done.
  - destruct (Ascii.eqb c slash); [by rewrite filter_cons_True|]. apply (IH d (cur ++ [c])). by destruct cur.
Qed.
Lemma parts_ne s : s <> "" -> parts s <> [].
Proof.
  intros H E. unfold parts, absolute in E. apply app_eq_nil in E as [E1 E2]. destruct s as [|c s]; [done|].
  cbn [list_ascii_of_string] in *. destruct (Ascii.eqb c slash) eqn:Ec; [done|]. apply map_eq_nil in E2. cbn [split_slash] in E2. rewrite Ec in E2.
  destruct (list_ascii_of_string s) as [|d l]; [done|]. by apply (split_slash_first d l [c]).
Qed.
Lemma absolute_app a b : a <> "" -> absolute (a +:+ b) = absolute a.
Proof. unfold absolute. rewrite chars_app. destruct a as [|c a]; [done|]. done. Qed.
Lemma plain_relative n : plain_name n -> absolute n = false.
Proof. intros [H N]. unfold absolute. destruct n as [|c n]; [done|]. cbn in *. destruct (Ascii.eqb c slash) eqn:E; [|done]. apply Ascii.eqb_eq in E as ->. destruct N. by left. Qed.
Lemma parts_join d n : d <> "" -> plain_name n -> parts (path_join d n) = parts d ++ [n].
Proof.
  intros Hd Hn. pose proof (plain_relative n Hn) as An. destruct Hn as [Hn Ns]. unfold path_join. rewrite An. cbn [orb].
  rewrite bool_decide_eq_false_2 by done. cbn [orb]. destruct (ends_slash d) eqn:Es.
  - unfold parts. rewrite absolute_app by done. rewrite <- app_assoc. f_equal. rewrite chars_app. unfold ends_slash in Es.
    destruct (reverse (list_ascii_of_string d)) as [|c r] eqn:Er; [done|]. apply Ascii.eqb_eq in Es as ->.
    apply (f_equal reverse) in Er. rewrite reverse_involutive, reverse_cons in Er. rewrite Er, <- app_assoc. cbn [app].
    rewrite !split_slash_app, (split_slash_plain (list_ascii_of_string n)) by done. cbn [app split_slash].
    rewrite !filter_app, !map_app, <- app_assoc. f_equal. rewrite filter_cons_True, !filter_nil by (by destruct n).
    cbn [map filter]. rewrite string_of_list_ascii_of_string. done.
  - unfold parts. rewrite absolute_app by done. rewrite <- app_assoc. f_equal. rewrite !chars_app.
    change (list_ascii_of_string "/" ++ list_ascii_of_string n) with (slash :: list_ascii_of_string n). rewrite split_slash_app, (split_slash_plain (list_ascii_of_string n)) by done. cbn [app].
    rewrite !filter_app, !map_app. f_equal. rewrite filter_cons_True, !filter_nil by (by destruct n). cbn [map]. by rewrite string_of_list_ascii_of_string.
Qed.

(** ** create_folder *)
Lemma mkdir_spec f s f' x : rooted f -> mkdir f s = (f', x) ->
  rooted f' /\ keeps f f' /\ adds (fun q => q = parts s) f f' /\ (x = None -> s <> "" /\ empty_folder f' (parts s)) /\ (x <> None -> f' = f).
Proof.
  intros R. unfold mkdir. destruct (decide (s = "")) as [->|Hs].
  - intros [= <- <-]. split; [done|]. split; [apply keeps_refl|]. split; [apply adds_refl|]. done.
  - intros E. destruct (mkdir_at_spec _ _ _ _ R E) as (A & B & C & D & F). split; [done|]. split; [done|]. split; [done|].
    split; [|done]. intros Hx. destruct (D Hx). done.
Qed.
Lemma makedirs_spec f s f' x : rooted f -> makedirs f s = (f', x) ->
  rooted f' /\ keeps f f' /\ adds (fun q => q `prefix_of` parts s) f f' /\ (x = None -> s <> "" /\ look f' (parts s) = Some TDir).
Proof.
  intros R. unfold makedirs. destruct (decide (s = "")) as [->|Hs].
  - intros [= <- <-]. split; [done|]. split; [apply keeps_refl|]. split; [apply adds_refl|]. done.
  - intros E. destruct (makedirs_rev_spec _ _ _ _ R E) as (A & B & C & D). rewrite reverse_involutive in *. split; [done|]. split; [done|]. split; [done|].
    intros Hx. split; [done|]. by apply D.
Qed.
Lemma entry_of_in p a : entry_of p (p ++ [a]) = Some a.
Proof. unfold entry_of. rewrite reverse_app. cbn [reverse app]. change (reverse [a]) with [a]. cbn [app]. by rewrite bool_decide_eq_true_2 by apply reverse_involutive. Qed.
Lemma listdir_elem f s l a : listdir f s = Ok l -> a ∈ l <-> is_Some (dget f (parts s ++ [a])).
Proof.
  unfold listdir. destruct (stat f s) as [[|c]|]; [|done|done]. intros [= <-]. rewrite elem_of_list_omap, dget_is_Some. split.
  - intros (q & Hq & E). unfold entry_of in E. destruct (reverse q) as [|n rp] eqn:Er; [done|]. case_bool_decide as D; [|done]. injection E as ->.
    apply (f_equal reverse) in Er. rewrite reverse_involutive, reverse_cons, D in Er. by subst q.
  - intros Hq. eexists. split; [done|]. apply entry_of_in.
Qed.
Lemma listdir_empty f s : rooted f -> s <> "" -> listdir f s = Ok [] -> empty_folder f (parts s).
Proof.
  intros R Hs E. pose proof E as E0. unfold listdir in E0. split.
  - unfold stat in E0. rewrite decide_False in E0 by done. by destruct (look f (parts s)) as [[]|].
  - intros a q. destruct (dget f (parts s ++ a :: q)) as [n|] eqn:Hq; [exfalso|done].
    assert (H : is_Some (dget f (parts s ++ [a]))).
    { destruct q as [|b q]; [by rewrite Hq|]. replace (parts s ++ a :: b :: q) with ((parts s ++ [a]) ++ b :: q) in Hq by by rewrite <- app_assoc.
      apply (rooted_up f) in Hq; [|done]. rewrite look_get in Hq; [by rewrite Hq|]. intros [H|H]; [by destruct (parts s)|].
      destruct (parts s) as [|x p] eqn:Ep; [by apply (parts_ne s)|]. injection H as _ H. by destruct p. }
    apply (listdir_elem f s [] a E) in H. by apply not_elem_of_nil in H.
Qed.

Lemma create_folder_keeps f d n s f' r : rooted f -> create_folder f d n s = (f', r) ->
  rooted f' /\ keeps f f' /\ adds (fun q => q `prefix_of` parts d \/ q = parts (path_join d n) \/ q = parts (path_join d (n +:+ "_" +:+ s))) f f'.
Proof.
  intros R. unfold create_folder. destruct (makedirs f d) as [f1 x1] eqn:E1. destruct (makedirs_spec _ _ _ _ R E1) as (R1 & K1 & A1 & _).
  assert (A1' : adds (fun q => q `prefix_of` parts d \/ q = parts (path_join d n) \/ q = parts (path_join d (n +:+ "_" +:+ s))) f f1).
  { eapply adds_mono, A1. tauto. }
  destruct x1 as [x|]; [by intros [= <- <-]|]. destruct (mkdir f1 (path_join d n)) as [f2 x2] eqn:E2.
  destruct (mkdir_spec _ _ _ _ R1 E2) as (R2 & K2 & A2 & _).
  assert (A2' : adds (fun q => q `prefix_of` parts d \/ q = parts (path_join d n) \/ q = parts (path_join d (n +:+ "_" +:+ s))) f f2).
  { eapply adds_trans; [done|]. eapply adds_mono, A2. tauto. }
  pose proof (keeps_trans _ _ _ K1 K2) as K2'.
  destruct x2 as [x|]; [|by intros [= <- <-]]. destruct (decide (x = FileExistsError)) as [->|Hx].
  2: { destruct x; try (by intros [= <- <-]); done. }
  destruct (listdir f2 (path_join d n)) as [[|a l]|x]; [by intros [= <- <-]| |by intros [= <- <-]].
  destruct (mkdir f2 (path_join d (n +:+ "_" +:+ s))) as [f3 x3] eqn:E3. destruct (mkdir_spec _ _ _ _ R2 E3) as (R3 & K3 & A3 & _).
  assert (H : rooted f3 /\ keeps f f3 /\ adds (fun q => q `prefix_of` parts d \/ q = parts (path_join d n) \/ q = parts (path_join d (n +:+ "_" +:+ s))) f f3).
  { split; [done|]. split; [by eapply keeps_trans|]. eapply adds_trans; [done|]. eapply adds_mono, A3. tauto. }
  destruct x3; by intros [= <- <-].
Qed.
Lemma create_folder_empty f d n s f' p : rooted f -> create_folder f d n s = (f', Ok p) ->
  empty_folder f' (parts p) /\ (p = path_join d n \/ p = path_join d (n +:+ "_" +:+ s)).
Proof.
  intros R. unfold create_folder. destruct (makedirs f d) as [f1 x1] eqn:E1. destruct (makedirs_spec _ _ _ _ R E1) as (R1 & K1 & A1 & M1).
  destruct x1 as [x|]; [by intros [= <- <-]|]. destruct (mkdir f1 (path_join d n)) as [f2 x2] eqn:E2.
  destruct (mkdir_spec _ _ _ _ R1 E2) as (R2 & K2 & A2 & M2 & _).
  destruct x2 as [x|].
  2: { intros H. injection H as -> <-. split; [|by left]. by apply M2. }
  destruct (decide (x = FileExistsError)) as [->|Hx].
  2: { destruct x; try (by intros [= <- <-]); done. }
  destruct (listdir f2 (path_join d n)) as [[|a l]|x] eqn:EL; [| |by intros [= <- <-]].
  { intros H. injection H as -> <-. split; [|by left]. apply listdir_empty; [done| |done]. intros E. rewrite E in EL. done. }
  destruct (mkdir f2 (path_join d (n +:+ "_" +:+ s))) as [f3 x3] eqn:E3. destruct (mkdir_spec _ _ _ _ R2 E3) as (R3 & K3 & A3 & M3 & _).
  destruct x3; [by intros [= <- <-]|]. intros H. injection H as -> <-. split; [|by right]. by apply M3.
Qed.
Lemma mkdir_ok f d n : rooted f -> d <> "" -> plain_name n -> look f (parts d) = Some TDir -> look f (parts d ++ [n]) = None ->
  mkdir f (path_join d n) = (dset f (parts d ++ [n]) TDir, None).
Proof.
  intros R Hd Hn L1 L2. unfold mkdir. rewrite decide_False.
  2: { intros E. pose proof (parts_join d n Hd Hn) as P. rewrite E in P. by destruct (parts d). }
  unfold mkdir_at. rewrite (parts_join d n Hd Hn), L2, removelast_last, L1. done.
Qed.
(** A folder is made when nothing is in the way. *)
Lemma create_folder_new f d n s : rooted f -> d <> "" -> plain_name n -> no_file_on f (parts d) -> look f (parts d ++ [n]) = None ->
  exists f', create_folder f d n s = (f', Ok (path_join d n)).
Proof.
  intros R Hd Hn N L. unfold create_folder. destruct (makedirs_rev_ok (reverse (parts d)) f R) as [f1 E1]; [by rewrite reverse_involutive|].
  assert (E : makedirs f d = (f1, None)) by (unfold makedirs; by rewrite decide_False).
  rewrite E. destruct (makedirs_spec _ _ _ _ R E) as (R1 & K1 & A1 & M1). destruct M1 as [_ M1]; [done|].
  rewrite mkdir_ok; [by eexists|done|done|done|done|]. destruct (look_None _ _ L) as [G S].
  rewrite look_get by done. destruct (dget f1 (parts d ++ [n])) as [m|] eqn:Em; [exfalso|done].
  destruct (A1 _ _ Em) as [H|[_ H]]; [congruence|]. apply prefix_length in H. rewrite app_length in H. cbn in H. lia.
Qed.
Lemma plain_stamp n s : plain_name n -> ~ In slash (list_ascii_of_string s) -> plain_name (n +:+ "_" +:+ s).
Proof.
  intros [A B] C. split; [by destruct n|]. rewrite !chars_app, !in_app_iff. intros [H|[H|H]]; [done| |done]. destruct H as [H|[]]. done.
Qed.
(** A populated folder gets a neighbour, when the time stamp is not in use yet. *)
Lemma create_folder_beside f d n s : rooted f -> d <> "" -> plain_name n -> ~ In slash (list_ascii_of_string s) ->
  look f (parts d) = Some TDir -> look f (parts d ++ [n]) = Some TDir -> listdir f (path_join d n) <> Ok [] ->
  look f (parts d ++ [n +:+ "_" +:+ s]) = None ->
  exists f', create_folder f d n s = (f', Ok (path_join d (n +:+ "_" +:+ s))).
Proof.
  intros R Hd Hn Hs L1 L2 Hl L3. unfold create_folder.
  assert (E : makedirs f d = (f, None)).
  { unfold makedirs. rewrite decide_False by done. destruct (reverse (parts d)) as [|a up] eqn:Er; [done|]. rewrite makedirs_step.
    apply (f_equal reverse) in Er. rewrite reverse_involutive in Er. rewrite <- Er.
    assert (Hup : is_Some (look f (reverse up))).
    { rewrite Er, reverse_cons in L1. unfold look in L1. destruct (decide _) as [D|D].
      - rewrite look_special; [by eexists|]. destruct D as [D|D]; [by destruct (reverse up)|]. left. destruct (reverse up) as [|x [|? ?]]; done.
      - apply rooted_up in L1; [by rewrite L1|done]. }
    destruct Hup as [m ->]. unfold mkdir_at. rewrite L1. by rewrite L1. }
  rewrite E. assert (Hp : path_join d n <> "") by (intros H; pose proof (parts_join d n Hd Hn) as P; rewrite H in P; by destruct (parts d)).
  assert (E2 : mkdir f (path_join d n) = (f, Some FileExistsError)).
  { unfold mkdir. rewrite decide_False by done. unfold mkdir_at. by rewrite (parts_join d n Hd Hn), L2. }
  rewrite E2. destruct (listdir f (path_join d n)) as [[|a l]|x] eqn:EL; [done| |].
  - rewrite mkdir_ok; [by eexists|done|done|by apply plain_stamp|done|done].
  - unfold listdir, stat in EL. rewrite decide_False, (parts_join d n Hd Hn), L2 in EL by done. done.
Qed.

(** ** rmtree *)
Lemma rm_loop_calls rm left : forall f k, ((rm_loop rm f k left).1.2 <= k + left + 1)%nat.
Proof.
  induction left as [|left IH]; intros f k; cbn [rm_loop]; [cbn; lia|]. destruct (rm k f) as [f1 [[]|]]; try (cbn; lia).
  destruct left as [|left]; [destruct (rm (S k) f1); cbn; lia|]. specialize (IH f1 (S k)). lia.
Qed.
Lemma rm_loop_gone rm (gone : tfs -> Prop) left : (forall k f, (rm k f).2 = None -> gone (rm k f).1) -> forall f k, left <> 0%nat ->
  (rm_loop rm f k left).2 = None -> gone (rm_loop rm f k left).1.1.
Proof.
  intros H. induction left as [|left IH]; intros f k Hl; [done|]. cbn [rm_loop]. destruct (rm k f) as [f1 x] eqn:E.
  assert (H1 : x = None -> gone f1) by (intros ->; specialize (H k f); rewrite E in H; by apply H).
  destruct x as [[]|]; try done.
  destruct left as [|left].
  - destruct (rm (S k) f1) as [f2 x2] eqn:E2. cbn. intros ->. specialize (H (S k) f1). rewrite E2 in H. by apply H.
  - by apply IH.
Qed.
Lemma rm_loop_normal rm left : forall f k, left <> 0%nat ->
  (rm_loop rm f k left).2 = None <-> exists j g, (j <= left)%nat /\ denied rm k j f g /\ (rm (k + j)%nat g).2 = None.
Proof.
  induction left as [|left IH]; intros f k Hl; [done|]. cbn [rm_loop]. destruct (rm k f) as [f1 x] eqn:E.
  destruct (decide (x = Some PermissionError)) as [->|Hx].
  - destruct left as [|left].
    + destruct (rm (S k) f1) as [f2 x2] eqn:E2. cbn [snd]. split.
      * intros ->. exists 1%nat, f1. split; [lia|]. split; [econstructor; [done|constructor]|]. replace (k + 1)%nat with (S k) by lia. by rewrite E2.
      * intros (j & g & Hj & D & N). destruct D as [k f|k j f f1' g E' D]; [replace (k + 0)%nat with k in N by lia; by rewrite E in N|].
        rewrite E in E'. injection E' as <-. destruct j as [|j]; [|lia]. inversion D; subst. replace (k + 1)%nat with (S k) in N by lia. by rewrite E2 in N.
    + rewrite IH by done. split.
      * intros (j & g & Hj & D & N). exists (S j), g. split; [lia|]. split; [by econstructor|]. by replace (k + S j)%nat with (S k + j)%nat by lia.
      * intros (j & g & Hj & D & N). destruct D as [k f|k j f f1' g E' D]; [replace (k + 0)%nat with k in N by lia; by rewrite E in N|].
        rewrite E in E'. injection E' as <-. exists j, g. split; [lia|]. split; [done|]. by replace (S k + j)%nat with (k + S j)%nat by lia.
  - assert (R : (match x with Some PermissionError => match left with O => let '(f2, x) := rm (S k) f1 in (f2, S (S k), x) | S _ => rm_loop rm f1 (S k) left end | _ => (f1, S k, x) end) = (f1, S k, x)).
    { destruct x as [[]|]; done. }
    rewrite R. cbn [snd]. split.
    + intros ->. exists 0%nat, f. split; [lia|]. split; [constructor|]. replace (k + 0)%nat with k by lia. by rewrite E.
    + intros (j & g & Hj & D & N). destruct D as [k f|k j f f1' g E' D]; [replace (k + 0)%nat with k in N by lia; by rewrite E in N|]. rewrite E in E'. by injection E'.
Qed.
