(** The names of exported files. *)
From Coq Require Import Ascii.
From stdpp Require Import pretty.
From Verif Require Import Py Nd Numpy Point Bin Algorithms Tile Time Meta Disk Grid GridRun GridQuery GridOps Export Views Convenience ExportNames Names FolderSpec FilesSpec Spec TileExec GridExec
  PyFacts NameFacts NamesFacts FolderFacts GridKeepFacts.
Open Scope Z_scope.

Notation string_of := string_of_list_ascii.
Lemma dot_slash : dot <> slash. Proof. done. Qed.
Lemma eqb_ne a b : a <> b -> Ascii.eqb a b = false.
Proof. apply Ascii.eqb_neq. Qed.
Lemma string_chars s : string_of (chars s) = s.
Proof. apply string_of_list_ascii_of_string. Qed.
Lemma chars_string' l : chars (string_of l) = l.
Proof. apply chars_string. Qed.

(** ** splitext *)
Lemma find_dot_cut w b : ~ In slash w -> ~ In dot w -> find_dot (w ++ dot :: b) = Some (w ++ [dot], b).
Proof.
  induction w as [|c w IH]; intros Hs Hd; [done|]. cbn [app find_dot]. rewrite !eqb_ne by (intros ->; first [by apply Hs; left|by apply Hd; left]).
  rewrite IH; [done|..]; intros H; first [by apply Hs; right|by apply Hd; right].
Qed.
Lemma find_dot_none w r : ~ In slash w -> ~ In dot w -> (r = [] \/ exists r', r = slash :: r') -> find_dot (w ++ r) = None.
Proof.
  intros Hs Hd Hr. induction w as [|c w IH]; [destruct Hr as [->|[r' ->]]; done|]. cbn [app find_dot].
  rewrite !eqb_ne by (intros ->; first [by apply Hs; left|by apply Hd; left]). rewrite IH; [done|..]; intros H; first [by apply Hs; right|by apply Hd; right].
Qed.
(** The text up to the first '/' has no '.', or is cut at the first one. *)
Lemma find_dot_cases l : ~ In slash l -> ~ In dot l \/ exists w b, l = w ++ dot :: b /\ ~ In slash w /\ ~ In dot w /\ ~ In slash b.
Proof.
  induction l as [|c l IH]; intros Hs; [by left; intros []|]. destruct (Ascii.eqb c dot) eqn:E.
  - apply Ascii.eqb_eq in E as ->. right. exists [], l. split; [done|]. split; [by intros []|]. split; [by intros []|]. intros H. apply Hs. by right.
  - apply Ascii.eqb_neq in E. destruct IH as [IH|(w & b & -> & H1 & H2 & H3)]; [intros H; apply Hs; by right|left; by intros [->|H]|].
    right. exists (c :: w), b. split; [done|]. split; [intros [->|H]; [apply Hs; by left|done]|]. split; [by intros [->|H]|done].
Qed.
Lemma only_dots_app b r : ~ In slash b -> (r = [] \/ exists r', r = slash :: r') -> only_dots (b ++ r) = only_dots b.
Proof.
  intros Hs Hr. induction b as [|c b IH]; [destruct Hr as [->|[r' ->]]; done|]. cbn [app only_dots].
  rewrite IH by (intros H; apply Hs; by right). done.
Qed.
Lemma only_dots_other w c b : ~ In slash w -> c <> dot -> c <> slash -> only_dots (w ++ c :: b) = false.
Proof.
  intros Hs Hd Hc. induction w as [|x w IH]; cbn [app only_dots]; [by rewrite !eqb_ne|].
  rewrite IH by (intros H; apply Hs; by right). rewrite andb_false_r, eqb_ne; [done|]. intros ->. apply Hs. by left.
Qed.
Lemma in_reverse {A} (x : A) l : In x (reverse l) <-> In x l.
Proof. rewrite <- !elem_of_list_In. by rewrite elem_of_reverse. Qed.

Definition dirlike (d : list ascii) : Prop := d = [] \/ exists d', d = d' ++ [slash].
Lemma dirlike_reverse d : dirlike d -> reverse d = [] \/ exists r', reverse d = slash :: r'.
Proof. intros [->|[d' ->]]; [by left|]. right. exists (reverse d'). by rewrite reverse_app. Qed.
(** The extension is cut from the name alone, at a '.'. *)
Lemma splitext_dir d w : dirlike d -> ~ In slash w -> exists w' x, w = w' ++ x /\ (x = [] \/ exists y, x = dot :: y) /\
  splitext (string_of (d ++ w)) = (string_of (d ++ w'), string_of x) /\ splitext (string_of w) = (string_of w', string_of x).
Proof.
  intros Hd Hw. apply dirlike_reverse in Hd. unfold splitext. rewrite !chars_string', reverse_app.
  assert (Hs : ~ In slash (reverse w)) by by rewrite in_reverse.
  destruct (find_dot_cases (reverse w) Hs) as [Hn|(v & b & Ev & H1 & H2 & H3)].
  - exists w, []. rewrite app_nil_r. split; [done|]. split; [by left|]. rewrite find_dot_none by done.
    rewrite <- (app_nil_r (reverse w)), find_dot_none by (done || by left). done.
  - apply (f_equal reverse) in Ev as Ew. rewrite reverse_involutive, reverse_app, reverse_cons in Ew.
    rewrite Ev, <- app_assoc. cbn [app]. rewrite !find_dot_cut by done. rewrite only_dots_app by done. destruct (only_dots b) eqn:Eo.
    + exists w, []. rewrite app_nil_r. split; [done|]. split; [by left|]. done.
    + exists (reverse b), (dot :: reverse v). rewrite Ew, <- app_assoc. split; [done|]. split; [right; by eexists|].
      rewrite !reverse_app, !reverse_involutive. done.
Qed.
Lemma splitext_stamp name stamp : ~ In slash (chars name) -> ~ In dot (chars stamp) -> ~ In slash (chars stamp) ->
  splitext ((splitext name).1 +:+ "_" +:+ stamp +:+ (splitext name).2) = ((splitext name).1 +:+ "_" +:+ stamp, (splitext name).2).
Proof.
  intros Hn Hd Hs. assert (Hs' : ~ In slash (reverse (chars name))) by by rewrite in_reverse.
  set (st := us :: chars stamp). assert (D1 : ~ In dot (reverse st)) by (rewrite in_reverse; intros [H|H]; [discriminate|done]).
  assert (D2 : ~ In slash (reverse st)) by (rewrite in_reverse; intros [H|H]; [discriminate|done]).
  unfold splitext at 2 3 4 5. destruct (find_dot_cases _ Hs') as [H|(v & b & Ev & H1 & H2 & H3)].
  - rewrite <- (app_nil_r (reverse (chars name))), find_dot_none by (done || by left). cbn [fst snd]. unfold splitext.
    rewrite !chars_app. cbn [chars list_ascii_of_string]. rewrite app_nil_r. change (chars "_" ++ chars stamp) with st. rewrite reverse_app.
    rewrite <- (app_nil_r (_ ++ _)), find_dot_none; [|rewrite in_app_iff; tauto..|by left]. f_equal. apply chars_inj. rewrite !chars_app. cbn. by rewrite app_nil_r.
  - rewrite Ev, find_dot_cut by done. destruct (only_dots b) eqn:Eo; cbn [fst snd].
    + unfold splitext. rewrite !chars_app. rewrite app_nil_r. change (chars "_" ++ chars stamp) with st. rewrite reverse_app, Ev, app_assoc.
      rewrite find_dot_cut, Eo by (rewrite in_app_iff; tauto). f_equal. apply chars_inj. rewrite !chars_app. cbn. by rewrite app_nil_r.
    + unfold splitext. rewrite !chars_app, !chars_string'.
      assert (Er : reverse (reverse b ++ chars "_" ++ chars stamp ++ reverse (v ++ [dot])) = v ++ dot :: (reverse (chars stamp) ++ us :: b)).
      { rewrite !reverse_app, !reverse_involutive. rewrite <- !app_assoc. done. }
      rewrite Er, find_dot_cut by done. rewrite only_dots_other; [|by rewrite in_reverse|done|done]. f_equal.
      apply chars_inj. rewrite !chars_app, !chars_string', reverse_app, reverse_cons, reverse_involutive, <- app_assoc. done.
Qed.
Lemma splitext_ext x t a w : chars x = a ++ us :: t -> ~ In slash t -> ~ In dot w -> ~ In slash w -> (splitext (x +:+ string_of (dot :: w))).1 = x.
Proof.
  intros Ex Ht Hd Hw. unfold splitext. rewrite chars_app, chars_string', Ex.
  assert (Er : reverse ((a ++ us :: t) ++ dot :: w) = reverse w ++ dot :: (reverse t ++ us :: reverse a)).
  { rewrite reverse_app, !reverse_cons, reverse_app, reverse_cons, <- !app_assoc. done. }
  rewrite Er, find_dot_cut by (by rewrite in_reverse). rewrite only_dots_other by (done || by rewrite in_reverse). cbn [fst].
  apply chars_inj. by rewrite chars_string', reverse_app, reverse_cons, !reverse_involutive, <- app_assoc, Ex.
Qed.

(** ** Folders *)
Notation real := (filter (fun l : list ascii => l <> [])).
Lemma real_one w : w <> [] -> real [w] = [w].
Proof. intros H. by rewrite filter_cons_True, filter_nil. Qed.
Lemma parts_dir d : dirlike d -> exists ds, forall w, w <> [] -> ~ In slash w -> parts (string_of (d ++ w)) = ds ++ [string_of w].
Proof.
  intros [->|[d' ->]].
  - exists []. intros w Hw Hs. unfold parts. cbn [app]. rewrite plain_relative by (split; [by destruct w|by rewrite chars_string']).
    rewrite chars_string', split_slash_plain, real_one by done. done.
  - exists ((if absolute (string_of (d' ++ [slash])) then ["/"] else []) ++ map string_of (real (split_slash [] d'))). intros w Hw Hs. unfold parts. rewrite <- (app_assoc _ (map _ _)). f_equal.
    + unfold absolute. rewrite !chars_string'. by destruct d'.
    + rewrite chars_string', <- app_assoc. cbn [app]. rewrite split_slash_app, (split_slash_plain w), filter_app, map_app by done. cbn [app]. by rewrite real_one.
Qed.
Lemma parts_slashes a b : a <> [] -> parts (string_of (a ++ slash :: slash :: b)) = parts (string_of (a ++ slash :: b)).
Proof.
  intros Ha. unfold parts. f_equal.
  - unfold absolute. rewrite !chars_string'. by destruct a.
  - rewrite !chars_string', !split_slash_app. cbn [split_slash]. rewrite Ascii.eqb_refl, !filter_app, filter_cons_False by auto. done.
Qed.
Lemma take_name_spec l : exists a b, take_name l = (a, b) /\ l = a ++ b /\ ~ In slash a /\ (b = [] \/ exists b', b = slash :: b').
Proof.
  induction l as [|c l IH]; cbn [take_name]; [exists [], []; repeat split; try done; [by intros []|by left]|].
  destruct (Ascii.eqb c slash) eqn:E.
  - apply Ascii.eqb_eq in E as ->. exists [], (slash :: l). repeat split; try done; [by intros []|]. right. by eexists.
  - destruct IH as (a & b & -> & -> & H & Hb). exists (c :: a), b. repeat split; try done. apply Ascii.eqb_neq in E. by intros [->|?].
Qed.
Lemma drop_slashes_spec l : exists k, l = replicate k slash ++ drop_slashes l /\ (drop_slashes l = [] \/ exists c r, drop_slashes l = c :: r /\ c <> slash).
Proof.
  induction l as [|c l IH]; [exists 0%nat; split; [done|by left]|]. cbn [drop_slashes]. destruct (Ascii.eqb c slash) eqn:E.
  - apply Ascii.eqb_eq in E as ->. destruct IH as (k & Hk & H). exists (S k). split; [cbn; by rewrite <- Hk|done].
  - exists 0%nat. split; [done|]. right. exists c, l. split; [done|]. by apply Ascii.eqb_neq.
Qed.
Lemma reverse_replicate {A} (x : A) k : reverse (replicate k x) = replicate k x.
Proof. apply reverse_replicate. Qed.
Lemma chars_ne s : s <> "" -> chars s <> [].
Proof. by destruct s. Qed.
(** The folder of a path that does not end in '/'. *)
Lemma path_split_spec p : exists d, dirlike d /\ chars p = d ++ chars (path_split p).2 /\ ~ In slash (chars (path_split p).2) /\
  exists ds, (forall w, w <> [] -> ~ In slash w -> parts (string_of (d ++ w)) = ds ++ [string_of w]) /\
  exists d2, dirlike d2 /\ (forall n, ~ In slash (chars n) -> chars (path_join (path_split p).1 n) = d2 ++ chars n) /\
    (forall w, w <> [] -> ~ In slash w -> parts (string_of (d2 ++ w)) = ds ++ [string_of w]).
Proof.
  unfold path_split. destruct (take_name_spec (reverse (chars p))) as (a & b & E & El & Ha & Hb). rewrite E. cbn [fst snd].
  apply (f_equal reverse) in El. rewrite reverse_involutive, reverse_app in El.
  assert (Hd : dirlike (reverse b)). { destruct Hb as [->|[b' ->]]; [by left|]. right. exists (reverse b'). by rewrite reverse_cons. }
  exists (reverse b). split; [done|]. rewrite !chars_string'. split; [done|]. split; [by rewrite in_reverse|].
  assert (Hrel : forall n, ~ In slash (chars n) -> absolute n = false).
  { intros n Hn. unfold absolute. destruct (chars n) as [|c l] eqn:En; [done|]. apply eqb_ne. intros ->. apply Hn. by left. }
  destruct (parts_dir _ Hd) as [ds Hds]. exists ds. split; [done|]. destruct (drop_slashes_spec b) as (k & Hk & [Hr|(c & r & Hr & Hc)]).
  - rewrite Hr in *. exists (reverse b). split; [done|]. split; [|done]. intros n Hn. unfold path_join. rewrite Hrel by done.
    destruct Hb as [->|[b' ->]]; [done|]. replace (_ || _) with true; [by rewrite chars_app, chars_string'|]. symmetry. apply orb_true_iff. right.
    unfold ends_slash. by rewrite chars_string', reverse_involutive.
  - rewrite Hr in *. set (s := c :: r) in *. assert (Hs : reverse s <> []) by (unfold s; rewrite reverse_cons; by destruct (reverse r)).
    exists (reverse s ++ [slash]). split; [right; by eexists|]. split.
    + intros n Hn. unfold path_join. rewrite Hrel by done. rewrite bool_decide_eq_false_2 by (destruct (reverse s); done).
      replace (ends_slash _) with false; [|unfold ends_slash; rewrite chars_string', reverse_involutive; unfold s; symmetry; by apply eqb_ne].
      cbn [orb]. rewrite !chars_app, chars_string', <- app_assoc. done.
    + destruct k as [|k]; [cbn in Hk; subst b; destruct Hb as [Hb|[b' Hb]]; [done|]; unfold s in Hb; congruence|].
      intros w Hw Hw'. rewrite <- Hds by done. rewrite Hk, reverse_app, reverse_replicate. clear -Hs.
      induction k as [|k IH]; [by rewrite <- !app_assoc|]. rewrite IH. rewrite <- !app_assoc. cbn [replicate app]. by rewrite parts_slashes.
Qed.

(** ** Where the files are *)
Lemma base_parts f stamp path : (path_split path).2 <> "" -> ~ In slash (chars stamp) ->
  exists ds stem, parts path = ds ++ [(path_split path).2] /\ ~ In slash (chars stem) /\
    (forall s, ~ In slash (chars s) -> parts ((splitext (export_path f stamp path)).1 +:+ "_" +:+ s) = ds ++ [stem +:+ "_" +:+ s]) /\
    (stat f path = None -> exists x, (path_split path).2 = stem +:+ x /\ (x = "" \/ exists y, chars x = dot :: y) /\ stem = (splitext (path_split path).2).1) /\
    (stat f path <> None -> ~ In dot (chars stamp) -> stem = (splitext (path_split path).2).1 +:+ "_" +:+ stamp).
Proof.
  intros Hnm Hst. destruct (path_split_spec path) as (d & Hd & Ep & Hs & ds & Hds & d2 & Hd2 & Ej & Hds2). set (nm := (path_split path).2) in *.
  assert (Epath : path = string_of (d ++ chars nm)) by (by rewrite <- Ep, string_chars).
  assert (Epp : parts path = ds ++ [nm]). { rewrite Epath, Hds by (done || by apply chars_ne). by rewrite string_chars. }
  assert (Hgen : forall d0 w, dirlike d0 -> (forall w, w <> [] -> ~ In slash w -> parts (string_of (d0 ++ w)) = ds ++ [string_of w]) -> ~ In slash w ->
    exists stem x, w = chars stem ++ x /\ (x = [] \/ exists y, x = dot :: y) /\ ~ In slash (chars stem) /\ stem = (splitext (string_of w)).1 /\
      forall s, ~ In slash (chars s) -> parts ((splitext (string_of (d0 ++ w))).1 +:+ "_" +:+ s) = ds ++ [stem +:+ "_" +:+ s]).
  { intros d0 w Hd0 H0 Hw. destruct (splitext_dir d0 w Hd0 Hw) as (w' & x & -> & Hx & E1 & E2). exists (string_of w'), x. rewrite chars_string', E1, E2.
    assert (Hw' : ~ In slash w') by (intros H; apply Hw, in_app_iff; by left). repeat split; try done. intros s Hss. cbn [fst].
    replace (string_of (d0 ++ w') +:+ "_" +:+ s) with (string_of (d0 ++ (w' ++ us :: chars s))) by
      (apply chars_inj; rewrite !chars_app, !chars_string', <- app_assoc; done).
    rewrite H0; [|by destruct w'|]. 2:{ rewrite in_app_iff. intros [H|[H|H]]; [done|discriminate|done]. }
    do 2 f_equal. apply chars_inj. rewrite !chars_app, !chars_string'. done. }
  unfold export_path. destruct (stat f path) as [n|] eqn:Est.
  - assert (Hin : ~ In slash (chars ((splitext nm).1 +:+ "_" +:+ stamp +:+ (splitext nm).2))).
    { destruct (splitext_dir [] (chars nm) (or_introl eq_refl) Hs) as (w' & x & Ew & _ & E1 & _). cbn [app] in E1. rewrite string_chars in E1. rewrite E1. cbn [fst snd].
      rewrite !chars_app, !chars_string'. rewrite Ew, in_app_iff in Hs. rewrite !in_app_iff. cbn. intuition discriminate. }
    fold nm. destruct (Hgen d2 _ Hd2 Hds2 Hin) as (stem & x & Ew & Hx & H1 & H2 & H3). exists ds, stem. split; [done|]. split; [done|]. split.
    + intros s Hss. rewrite <- H3 by done. assert (Ep' := Ej _ Hin). apply (f_equal string_of) in Ep'. rewrite string_chars in Ep'. by rewrite <- Ep'.
    + split; [done|]. intros _ Hdot. rewrite H2, string_chars, splitext_stamp by done. done.
  - destruct (Hgen d _ Hd Hds Hs) as (stem & x & Ew & Hx & H1 & H2 & H3). exists ds, stem. split; [done|]. split; [done|]. split.
    + intros s Hss. rewrite <- H3 by done. by rewrite <- Epath.
    + split; [|done]. intros _. exists (string_of x). split; [apply chars_inj; by rewrite chars_app, chars_string'|]. split.
      * destruct Hx as [->|[y ->]]; [by left|right]. exists y. by rewrite chars_string'.
      * by rewrite H2, string_chars.
Qed.

(** ** The files of an export *)
Lemma fold_files {S0 A} (rez : A -> Z) (key : A -> Z * nat) (h : S0 -> Z -> res (S0 * list A)) :
  (forall s r s' l, h s r = Ok (s', l) -> NoDup (map key l) /\ Forall (fun a => rez a = r) l) -> (forall a, rez a = (key a).1) ->
  forall rs s l s' l', foldl (fun acc r => let* x := acc in let* y := h x.1 r in Ok (y.1, x.2 ++ y.2)) (Ok (s, l)) rs = Ok (s', l') ->
  NoDup rs -> NoDup (map key l) -> Forall (fun a => rez a ∉ rs) l -> NoDup (map key l').
Proof.
  intros Hh Hk. induction rs as [|r rs IH]; intros s l s' l' E Hn Hl Hf; cbn [foldl] in E; [by injection E as _ <-|]. cbn [rbind fst snd] in E.
  destruct (h s r) as [[s1 l1]|x] eqn:E1; cbn [rbind fst snd] in E.
  - inversion Hn as [|? ? Hr Hn']; subst. destruct (Hh _ _ _ _ E1) as [N1 F1]. apply (IH _ _ _ _ E); [done| |].
    + rewrite map_app. apply NoDup_app. split; [done|]. split; [|done]. intros k Hk1 Hk2. apply elem_of_list_fmap in Hk1 as (a & -> & Ha). apply elem_of_list_fmap in Hk2 as (b & Eb & Hb).
      rewrite Forall_forall in Hf, F1. specialize (Hf a Ha). specialize (F1 b Hb). apply Hf. rewrite (Hk a), Eb, <- Hk, F1. by left.
    + apply Forall_app. split; [eapply Forall_impl; [exact Hf|]; cbn; intros a Ha Hin; apply Ha; by right|]. eapply Forall_impl; [exact F1|]. cbn. by intros a ->.
  - exfalso. eapply (foldl_raise (fun (acc : res (S0 * list A)) (r0 : Z) => let* x0 := acc in let* y := h x0.1 r0 in Ok (y.1, x0.2 ++ y.2))); [|exact E].
    intros [y|y] b a; cbn; [eauto|done].
Qed.
Lemma number_files_keys r names chunks : forall n fs, number_files r names n chunks = Ok fs ->
  map (fun f => (rf_rez f, rf_chunk f)) fs = map (pair r) (seq n (length chunks)).
Proof.
  induction chunks as [|[geo data] rest IH]; intros n fs E; cbn [number_files] in E; [by injection E as <-|]. bind E. bind E. injection E as <-. cbn. f_equal. by apply IH.
Qed.
Lemma number_bags_keys m vert r names chunks : forall n fs, number_bags m vert r names n chunks = Ok fs ->
  map (fun f => (rf_rez (bf_raster f), rf_chunk (bf_raster f))) fs = map (pair r) (seq n (length chunks)).
Proof.
  induction chunks as [|[geo data] rest IH]; intros n fs E; cbn [number_bags] in E; [by injection E as <-|]. bind E. bind E. injection E as <-. cbn. f_equal. by apply IH.
Qed.
Lemma keys_nodup {A} (key : A -> Z * nat) (l : list A) r n k : map key l = map (pair r) (seq n k) -> NoDup (map key l) /\ Forall (fun a => (key a).1 = r) l.
Proof.
  intros E. split.
  - rewrite E. apply (NoDup_fmap_2 (pair r)), NoDup_seq.
  - apply Forall_forall. intros a Ha. assert (H : key a ∈ map key l) by (apply elem_of_list_fmap; eauto). rewrite E in H. by apply elem_of_list_fmap in H as (i & -> & _).
Qed.

Section files.
  Context {T : Type} (O : tile_ops T) (e : env) (repr : Z -> string) (Hr : good_repr repr) (Hs : forall x, ~ In slash (chars (repr x))).
  Definition rezs_of (g : grid T) (rez : option Z) : list Z := match rez with Some r => [r] | None => m_rezs (g_meta g) end.
  Lemma csv_keys g up rez g' fs : export_csv O e g up rez = Ok (g', fs) -> NoDup (rezs_of g rez) -> NoDup (map (fun c => (cf_rez c, 0%nat)) fs).
  Proof.
    intros E Hn. unfold export_csv in E. fold (rezs_of g rez) in E.
    set (h := fun (s : grid T) r => let* ls := g_return_layer_names O s in let* gs := g_surf_nodes O e s ls (Some r) None in
      let '(xs, ys, data) := gs.2 in let* cols := csv_columns (g_meta g) up ls data in Ok (gs.1, [CsvFile r (["x"; "y"] ++ map fst cols) (csv_lines xs ys cols)])).
    refine (fold_files cf_rez (fun c => (cf_rez c, 0%nat)) h _ _ (rezs_of g rez) g [] g' fs _ Hn (NoDup_nil_2) (Forall_nil_2 _)); [|done|].
    - intros s r s' l Eh. unfold h in Eh. do 2 bind Eh. destruct v0 as [g1 [[xs ys] data]]. cbn in Eh. bind Eh. injection Eh as <- <-. cbn.
      split; [apply NoDup_singleton|by repeat constructor].
    - rewrite <- E. clear E Hn. generalize (Ok (g, @nil csv_file)) as a. induction (rezs_of g rez) as [|r rs IH]; intros a; [done|]. cbn [foldl]. rewrite IH. f_equal.
      destruct a as [s|]; [|done]. cbn [rbind]. unfold h. destruct (g_return_layer_names O s.1) as [ls|]; [|done]. cbn [rbind].
      destruct (g_surf_nodes O e s.1 ls (Some r) None) as [[g1 [[xs ys] data]]|]; [|done]. cbn [rbind fst snd]. by destruct (csv_columns _ _ _ _).
  Qed.
  Lemma tif_keys g up rez mx g' fs : export_geotiff O e g up rez mx = Ok (g', fs) -> NoDup (rezs_of g rez) -> NoDup (map (fun f => (rf_rez f, rf_chunk f)) fs).
  Proof.
    intros E Hn. unfold export_geotiff in E. fold (rezs_of g rez) in E. bind E.
    set (h := fun (s : grid T) r => let* gc := g_get_chunks_of_tiles O e s r v.1 (Some 1000000%Q) up mx true in let* fs := number_files r v.2 1 gc.2 in Ok (gc.1, fs)).
    refine (fold_files rf_rez (fun f => (rf_rez f, rf_chunk f)) h _ _ (rezs_of g rez) g [] g' fs _ Hn (NoDup_nil_2) (Forall_nil_2 _)); [|done|].
    - intros s r s' l Eh. unfold h in Eh. do 2 bind Eh. injection Eh as <- <-. exact (keys_nodup _ _ _ _ _ (number_files_keys _ _ _ _ _ Hv1)).
    - rewrite <- E. clear E Hn. generalize (Ok (g, @nil raster_file)) as a. induction (rezs_of g rez) as [|r rs IH]; intros a; [done|]. cbn [foldl]. rewrite IH. f_equal.
      destruct a as [s|]; [|done]. cbn [rbind]. unfold h. destruct (g_get_chunks_of_tiles _ _ _ _ _ _ _ _ _) as [gc|]; [|done]. cbn [rbind]. by destruct (number_files _ _ _ _).
  Qed.
  Lemma bag_keys g rez mx vert g' fs : export_bag O e g rez mx vert = Ok (g', fs) -> NoDup (rezs_of g rez) ->
    NoDup (map (fun f => (rf_rez (bf_raster f), rf_chunk (bf_raster f))) fs).
  Proof.
    intros E Hn. unfold export_bag in E. fold (rezs_of g rez) in E. bind E.
    set (h := fun (s : grid T) r => let* gc := g_get_chunks_of_tiles O e s r v.1 (Some 1000000%Q) true mx true in
      let* fs := number_bags (g_meta g) (bag_vertical_wkt vert) r v.2 1 gc.2 in Ok (gc.1, fs)).
    refine (fold_files (fun f => rf_rez (bf_raster f)) (fun f => (rf_rez (bf_raster f), rf_chunk (bf_raster f))) h _ _ (rezs_of g rez) g [] g' fs _ Hn (NoDup_nil_2) (Forall_nil_2 _)); [|done|].
    - intros s r s' l Eh. unfold h in Eh. do 2 bind Eh. injection Eh as <- <-. exact (keys_nodup _ _ _ _ _ (number_bags_keys _ _ _ _ _ _ _ Hv1)).
    - rewrite <- E. clear E Hn. generalize (Ok (g, @nil bag_file)) as a. induction (rezs_of g rez) as [|r rs IH]; intros a; [done|]. cbn [foldl]. rewrite IH. f_equal.
      destruct a as [s|]; [|done]. cbn [rbind]. unfold h. destruct (g_get_chunks_of_tiles _ _ _ _ _ _ _ _ _) as [gc|]; [|done]. cbn [rbind]. by destruct (number_bags _ _ _ _ _ _).
  Qed.

  (** What follows the base and '_'. *)
  Definition csv_suffix (k : Z * nat) : string := repr k.1 +:+ ".csv".
  Definition raster_suffix (ext : string) (k : Z * nat) : string := repr k.1 +:+ "_" +:+ pretty (N.of_nat k.2) +:+ ext.
  Lemma csv_suffix_inj j k : j.2 = k.2 -> csv_suffix j = csv_suffix k -> j = k.
  Proof.
    intros E2 E. destruct j as [r n], k as [r' n']. cbn in *. subst. f_equal. apply (proj1 Hr). unfold csv_suffix in E. cbn in E.
    apply (f_equal chars) in E. rewrite !chars_app in E. apply chars_inj. by apply app_inv_tail in E.
  Qed.
  Lemma digit_other c : ~ In c digits -> forall n : nat, ~ In c (chars (pretty (N.of_nat n))).
  Proof. intros H n. by apply pretty_no. Qed.
  Lemma raster_suffix_inj x y j k : raster_suffix (string_of (dot :: x)) j = raster_suffix (string_of (dot :: y)) k -> j = k /\ x = y.
  Proof.
    destruct j as [r n], k as [r' n']. unfold raster_suffix. cbn [fst snd]. intros E. apply (f_equal chars) in E. rewrite !chars_app, !chars_string' in E.
    change (chars "_") with [us] in E. cbn [app] in E. apply cut_unique in E as [E1 E2]; [|apply (proj1 (proj2 Hr))..].
    apply cut_unique in E2 as [E2 E3]; [|apply digit_other; by apply not_digit..]. split; [|done]. apply chars_inj in E1. apply (proj1 Hr) in E1 as ->.
    apply chars_inj in E2. apply (inj pretty) in E2. f_equal. lia.
  Qed.
  Lemma csv_suffix_slash k : ~ In slash (chars (csv_suffix k)).
  Proof. unfold csv_suffix. rewrite chars_app, in_app_iff. intros [H|H]; [by apply Hs in H|]. cbn in H. intuition discriminate. Qed.
  Lemma raster_suffix_slash x k : ~ In slash (chars x) -> ~ In slash (chars (raster_suffix x k)).
  Proof.
    intros Hx. unfold raster_suffix. rewrite !chars_app, !in_app_iff. intros [H|[H|[H|H]]]; [by apply Hs in H|cbn in H; intuition discriminate| |done].
    revert H. apply digit_other. by apply not_digit.
  Qed.
  Lemma nodup_map_on {A B} (f : A -> B) (l : list A) : (forall x y, x ∈ l -> y ∈ l -> f x = f y -> x = y) -> NoDup l -> NoDup (map f l).
  Proof.
    intros Hf. induction 1 as [|x l Hx Hn IH]; [apply NoDup_nil_2|]. cbn. constructor.
    - intros H. apply elem_of_list_fmap in H as (y & E & Hy). apply Hf in E; [by subst|by left|by right].
    - apply IH. intros y z ??. apply Hf; by right.
  Qed.
  (** The names are the base, '_' and different texts without '/'. *)
  Lemma export_suffixes f stamp path g format up rez mx vert names : export_names O e repr f stamp path g format up rez mx vert = Ok names ->
    exists ss, names = map (fun s => (splitext (export_path f stamp path)).1 +:+ "_" +:+ s) ss /\ Forall (fun s => ~ In slash (chars s)) ss /\
      (NoDup (rezs_of g rez) -> NoDup ss).
  Proof.
    unfold export_names. set (base := (splitext (export_path f stamp path)).1). intros E. destruct (bool_decide (str_lower format = "csv")).
    { bind E. injection E as <-. destruct v as [g' fs]. exists (map csv_suffix (map (fun c => (cf_rez c, 0%nat)) fs)). cbn [snd]. split; [rewrite !map_map; apply map_ext; done|]. split.
      - apply Forall_forall. intros s H. apply elem_of_list_fmap in H as (k & -> & _). apply csv_suffix_slash.
      - intros Hn. apply nodup_map_on; [|by eapply csv_keys]. intros j k H1 H2. apply elem_of_list_fmap in H1 as (a & -> & _). apply elem_of_list_fmap in H2 as (b & -> & _). by apply csv_suffix_inj. }
    destruct (bool_decide (str_lower format = "geotiff")).
    { bind E. injection E as <-. destruct v as [g' fs]. exists (map (raster_suffix ".tif") (map (fun f => (rf_rez f, rf_chunk f)) fs)). cbn [snd]. split; [rewrite !map_map; apply map_ext; done|]. split.
      - apply Forall_forall. intros s H. apply elem_of_list_fmap in H as (k & -> & _). apply raster_suffix_slash. cbn. intuition discriminate.
      - intros Hn. apply nodup_map_on; [|by eapply tif_keys]. intros j k _ _ H. by apply (raster_suffix_inj (chars "tif") (chars "tif")) in H as [-> _]. }
    destruct (bool_decide (str_lower format = "bag")); [|done]. destruct (m_backscatter (g_meta g)); [done|]. bind E. injection E as <-. destruct v as [g' fs].
    exists (concat (map (fun k => [raster_suffix ".bag" k; raster_suffix ".bag_rxl" k]) (map (fun f => (rf_rez (bf_raster f), rf_chunk (bf_raster f))) fs))). cbn [snd].
    split; [|split].
    - rewrite concat_map, !map_map. f_equal. apply map_ext. intros b. unfold bag_names. cbn [map]. f_equal. f_equal.
      set (x := base +:+ "_" +:+ repr (rf_rez (bf_raster b)) +:+ "_" +:+ pretty (N.of_nat (rf_chunk (bf_raster b)))).
      assert (Ex : raster_name repr base ".bag" (bf_raster b) = x +:+ string_of (dot :: chars "bag")).
      { unfold raster_name, x. apply chars_inj. rewrite !chars_app, <- !app_assoc. done. }
      rewrite Ex, (splitext_ext x (chars (repr (rf_rez (bf_raster b))) ++ us :: chars (pretty (N.of_nat (rf_chunk (bf_raster b))))) (chars base)).
      + unfold x, raster_suffix. apply chars_inj. rewrite !chars_app, <- !app_assoc. done.
      + unfold x. rewrite !chars_app. done.
      + rewrite in_app_iff. intros [H|[H|H]]; [by apply Hs in H|discriminate|]. revert H. apply digit_other. by apply not_digit.
      + cbn. intuition discriminate.
      + cbn. intuition discriminate.
    - apply Forall_forall. intros s H. apply elem_of_list_In, in_concat in H as (l & Hl & Hin). apply in_map_iff in Hl as (k & <- & _).
      destruct Hin as [<-|[<-|[]]]; apply raster_suffix_slash; cbn; intuition discriminate.
    - intros Hn. assert (Hk := bag_keys _ _ _ _ _ _ Hv Hn). induction Hk as [|k l Hk Hl IH]; [apply NoDup_nil_2|]. cbn [map concat app].
      assert (Hx : forall x, x ∈ concat (map (fun k => [raster_suffix ".bag" k; raster_suffix ".bag_rxl" k]) l) -> exists j, j ∈ l /\ (x = raster_suffix ".bag" j \/ x = raster_suffix ".bag_rxl" j)).
      { intros x Hx. apply elem_of_list_In, in_concat in Hx as (m & Hm & Hin). apply in_map_iff in Hm as (j & <- & Hj). exists j. split; [by apply elem_of_list_In|].
        destruct Hin as [<-|[<-|[]]]; auto. }
      constructor; [|constructor; [|done]].
      + intros H. apply elem_of_cons in H as [H|H]; [by apply (raster_suffix_inj (chars "bag") (chars "bag_rxl")) in H as [_ ?]|].
        apply Hx in H as (j & Hj & [H|H]); [apply (raster_suffix_inj (chars "bag") (chars "bag")) in H as [-> _]; done|by apply (raster_suffix_inj (chars "bag") (chars "bag_rxl")) in H as [_ ?]].
      + intros H. apply Hx in H as (j & Hj & [H|H]); [by apply (raster_suffix_inj (chars "bag_rxl") (chars "bag")) in H as [_ ?]|
          apply (raster_suffix_inj (chars "bag_rxl") (chars "bag_rxl")) in H as [-> _]; done].
  Qed.
End files.

(** ** What exists *)
Lemma put_other names : forall f p, p ∉ map parts names -> dget (put f names) p = dget f p.
Proof.
  induction names as [|n names IH]; intros f p Hp; [done|]. cbn [put foldl]. change (foldl _ _ names) with (put (dset f (parts n) (TFile "")) names).
  rewrite IH by (intros H; apply Hp; by right). apply dget_dset_ne. intros ->. apply Hp. by left.
Qed.
Section exists_.
  Context {T : Type} (O : tile_ops T) (e : env) (repr : Z -> string) (Hr : good_repr repr) (Hs : forall x, ~ In slash (chars (repr x))).
  Context (f : tfs) (stamp path : string) (g : grid T) (format : string) (up : bool) (rez mx : option Z) (vert : string) (names : list string).
  Context (Hp : (path_split path).2 <> "") (Hst : ~ In slash (chars stamp)) (HE : export_names O e repr f stamp path g format up rez mx vert = Ok names).
  Lemma files_beside n : n ∈ names -> exists ds stem s, parts path = ds ++ [(path_split path).2] /\ parts n = ds ++ [stem +:+ "_" +:+ s] /\ ~ In slash (chars (stem +:+ "_" +:+ s)) /\
    (stat f path = None -> exists x, (path_split path).2 = stem +:+ x /\ (x = "" \/ exists y, chars x = dot :: y) /\ stem = (splitext (path_split path).2).1) /\
    (stat f path <> None -> ~ In dot (chars stamp) -> stem = (splitext (path_split path).2).1 +:+ "_" +:+ stamp).
  Proof using Hr Hs Hp Hst HE.
    intros Hn. destruct (export_suffixes O e repr Hr Hs _ _ _ _ _ _ _ _ _ _ HE) as (ss & -> & Hss & _). apply elem_of_list_fmap in Hn as (s & -> & H). rewrite Forall_forall in Hss.
    destruct (base_parts f stamp path Hp Hst) as (ds & stem & E1 & H1 & E2 & H2 & H3). exists ds, stem, s. split; [done|]. split; [by apply E2, Hss|]. split; [|done].
    rewrite !chars_app, !in_app_iff. intros [Hi|[Hi|Hi]]; [done|cbn in Hi; intuition discriminate|]. revert Hi. by apply Hss.
  Qed.
  Lemma look_file ds x : ~ In slash (chars x) -> look f (ds ++ [x]) = dget f (ds ++ [x]).
  Proof using.
    intros H. apply look_get. intros [H'|H']; [by destruct ds|]. destruct ds as [|d ds]; [|by destruct ds]. injection H' as ->. apply H. by left.
  Qed.
  Lemma stat_file n ds x : parts n = ds ++ [x] -> ~ In slash (chars x) -> dget f (ds ++ [x]) = None -> stat f n = None.
  Proof using. intros E H G. unfold stat. destruct (decide (n = "")); [done|]. by rewrite E, look_file. Qed.
  Lemma files_stamped n : stat f path <> None -> ~ In dot (chars stamp) -> (forall p x v, dget f (p ++ [x]) = Some v -> ~ occurs stamp x) -> n ∈ names -> stat f n = None.
  Proof using Hr Hs Hp Hst HE.
    intros Hx Hd Hf Hn. destruct (files_beside n Hn) as (ds & stem & s & _ & E & H & _ & H2). apply (stat_file _ _ _ E H).
    destruct (dget f _) as [v|] eqn:Ev; [|done]. exfalso. apply (Hf _ _ _ Ev). rewrite (H2 Hx Hd). exists ((splitext (path_split path).2).1 +:+ "_"), ("_" +:+ s).
    apply chars_inj. rewrite !chars_app, <- !app_assoc. done.
  Qed.
  Lemma files_missing n : stat f path = None ->
    (forall x v, dget f (removelast (parts path) ++ [x]) = Some v -> ~ exists s, x = (splitext (path_split path).2).1 +:+ "_" +:+ s) -> n ∈ names -> stat f n = None.
  Proof using Hr Hs Hp Hst HE.
    intros Hx Hf Hn. destruct (files_beside n Hn) as (ds & stem & s & Ep & E & H & H2 & _). apply (stat_file _ _ _ E H). destruct (H2 Hx) as (_ & _ & _ & ->).
    destruct (dget f _) as [v|] eqn:Ev; [|done]. exfalso. rewrite Ep, removelast_last in Hf. apply (Hf _ _ Ev). by exists s.
  Qed.
  Lemma files_again stamp' : stat f path = None -> export_names O e repr (put f names) stamp' path g format up rez mx vert = Ok names.
  Proof using Hr Hs Hp Hst HE.
    intros Hx. rewrite <- HE. unfold export_names, export_path. rewrite Hx. replace (stat (put f names) path) with (@None tnode); [done|]. symmetry.
    unfold stat in *. destruct (decide (path = "")); [done|]. apply look_None in Hx as Hx'. destruct Hx' as [Hx1 Hx2]. rewrite look_get by done. rewrite put_other; [done|].
    intros Hin. apply elem_of_list_fmap in Hin as (n0 & En & Hin). destruct (files_beside n0 Hin) as (ds & stem & s & Ep & E & _ & H2 & _).
    destruct H2 as (x & Ex & Hx3 & _); [unfold stat; by rewrite decide_False|]. rewrite Ep, E in En. apply app_inj_tail in En as [_ En]. rewrite Ex in En. apply (f_equal chars) in En.
    rewrite !chars_app in En. apply app_inv_head in En. destruct Hx3 as [->|[y Ey]]; [done|]. rewrite Ey in En. discriminate.
  Qed.
  Lemma files_distinct : NoDup (rezs_of g rez) -> NoDup names.
  Proof using Hr Hs HE.
    intros Hn. destruct (export_suffixes O e repr Hr Hs _ _ _ _ _ _ _ _ _ _ HE) as (ss & -> & _ & H). apply (nodup_map_on (fun s => _)); [|by apply H].
    intros x y _ _ E. apply (f_equal chars) in E. rewrite !chars_app in E. apply app_inv_head, app_inv_head in E. by apply chars_inj.
  Qed.
End exists_.
Lemma quarters_slash x : ~ In slash (chars (repr_quarters x)).
Proof.
  rewrite repr_chars. rewrite !in_app_iff. intros [H|[H|[H|H]]].
  - destruct (x <? 0); [destruct H as [H|[]]; discriminate|done].
  - revert H. apply pretty_no. by apply not_digit.
  - discriminate.
  - pose proof (frac_chars (Z.abs x)) as F. rewrite List.Forall_forall in F. apply F in H. revert H. by apply not_digit.
Qed.
