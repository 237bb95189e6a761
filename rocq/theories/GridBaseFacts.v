(** Lemmas for the placement of points and tiles in a grid: masks, content restricted to a square,
    tile squares, loops. *)
From Verif Require Import Py Nd Numpy Point Bin Algorithms Tile Time Meta Disk Grid Spec.
From Verif Require Import PyFacts NdFacts NumpyFacts BinFacts TileFacts.
Open Scope Z_scope.

(** ** mask_assign *)
Definition rank (m : list bool) (i : nat) : nat := length (filter (fun b : bool => b = true) (take i m)).

Lemma rank_0 m : rank m 0 = 0%nat.
Proof. done. Qed.
Lemma rank_S m i (b : bool) : m !! i = Some b -> rank m (S i) = (rank m i + if b then 1 else 0)%nat.
Proof.
  intros H. unfold rank. rewrite (take_S_r _ _ _ H), filter_app, app_length. f_equal.
  destruct b; done.
Qed.
Lemma rank_cons (b : bool) m i : rank (b :: m) (S i) = ((if b then 1 else 0) + rank m i)%nat.
Proof. unfold rank. rewrite firstn_cons, filter_cons. destruct b; done. Qed.

Lemma mask_assign_lookup {A} (m : list bool) (dst vals : list A) :
  length m = length dst -> rank m (length m) = length vals ->
  exists r, mask_assign m dst vals = Ok r /\ length r = length dst /\
    forall i (b : bool), m !! i = Some b -> r !! i = if b then vals !! rank m i else dst !! i.
Proof.
  revert dst vals. induction m as [|b m IH]; intros [|d dst] vals Hl Hr; simpl in Hl; try lia.
  - unfold rank in Hr. simpl in Hr. destruct vals; [|done]. exists []. done.
  - cbn [length] in Hr. rewrite rank_cons in Hr. destruct b; cbn [mask_assign].
    + destruct vals as [|v vals]; [simpl in Hr; lia|].
      destruct (IH dst vals) as (r & Hr1 & Hr2 & Hr3); [lia|simpl in Hr; lia|].
      rewrite Hr1. simpl. exists (v :: r). split; [done|]. split; [simpl; lia|].
      intros [|i] b Hb; simpl in Hb.
      * injection Hb as <-. done.
      * rewrite rank_cons. simpl. apply (Hr3 _ _ Hb).
    + destruct (IH dst vals) as (r & Hr1 & Hr2 & Hr3); [lia|simpl in Hr; lia|].
      rewrite Hr1. simpl. exists (d :: r). split; [done|]. split; [simpl; lia|].
      intros [|i] b Hb; simpl in Hb.
      * injection Hb as <-. done.
      * rewrite rank_cons. simpl. apply (Hr3 _ _ Hb).
Qed.

(** The mask of a rectangle inside an array. *)
Section rect_mask.
  Context (nx' ny' r0 c0 nx ny : nat) (m : list bool).
  Hypothesis Hx : (c0 + nx <= nx')%nat.
  Hypothesis Hy : (r0 + ny <= ny')%nat.
  Hypothesis Hm : forall r c, (r < ny')%nat -> (c < nx')%nat ->
    m !! (r * nx' + c)%nat = Some (bool_decide (r0 <= r < r0 + ny)%nat && bool_decide (c0 <= c < c0 + nx)%nat).

  Lemma rank_row r j : (r < ny')%nat -> (j <= nx')%nat ->
    rank m (r * nx' + j) = (rank m (r * nx') +
      if decide (r0 <= r < r0 + ny)%nat then Nat.min nx (j - c0) else 0)%nat.
  Proof using Hm.
    clear Hx Hy. intros Hr. induction j as [|j IH]; intros Hj.
    - rewrite Nat.add_0_r. destruct (decide _); lia.
    - rewrite Nat.add_succ_r. rewrite (rank_S _ _ _ (Hm r j Hr ltac:(lia))). rewrite IH by lia.
      destruct (decide (r0 <= r < r0 + ny)%nat) as [H|H].
      + rewrite bool_decide_eq_true_2 by done. simpl.
        destruct (decide (c0 <= j < c0 + nx)%nat) as [H'|H'].
        * rewrite bool_decide_eq_true_2 by done. lia.
        * rewrite bool_decide_eq_false_2 by done. lia.
      + rewrite bool_decide_eq_false_2 by done. simpl. lia.
  Qed.
  Lemma rank_rows r : (r <= ny')%nat -> rank m (r * nx') = (Nat.min ny (r - r0) * nx)%nat.
  Proof using All.
    induction r as [|r IH]; intros Hr.
    - simpl. rewrite rank_0. destruct ny; simpl; lia.
    - replace (S r * nx')%nat with (r * nx' + nx')%nat by lia. rewrite rank_row by lia. rewrite IH by lia.
      destruct (decide (r0 <= r < r0 + ny)%nat) as [H|H].
      + replace (Nat.min ny (S r - r0))%nat with (S (Nat.min ny (r - r0)))%nat by lia.
        replace (Nat.min nx (nx' - c0))%nat with nx by lia. lia.
      + replace (Nat.min ny (S r - r0))%nat with (Nat.min ny (r - r0))%nat by lia. lia.
  Qed.
  Lemma rank_rect r c : (r < ny)%nat -> (c < nx)%nat -> rank m ((r0 + r) * nx' + (c0 + c)) = (r * nx + c)%nat.
  Proof using All.
    intros. rewrite rank_row by lia. rewrite rank_rows by lia. rewrite decide_True by lia.
    replace (Nat.min ny (r0 + r - r0))%nat with r by lia. lia.
  Qed.
  Lemma rank_total : rank m (ny' * nx') = (ny * nx)%nat.
  Proof using All. rewrite rank_rows by lia. f_equal. lia. Qed.

  Lemma mask_assign_rect {A} (d0 : A) (dst vals : list A) :
    length m = (ny' * nx')%nat -> length dst = (ny' * nx')%nat -> length vals = (ny * nx)%nat ->
    exists res, mask_assign m dst vals = Ok res /\ length res = (ny' * nx')%nat /\
      (forall r c, (r < ny)%nat -> (c < nx)%nat ->
         res !! ((r0 + r) * nx' + (c0 + c))%nat = vals !! (r * nx + c)%nat) /\
      (forall r c, (r < ny')%nat -> (c < nx')%nat -> ~ (r0 <= r < r0 + ny /\ c0 <= c < c0 + nx)%nat ->
         res !! (r * nx' + c)%nat = dst !! (r * nx' + c)%nat).
  Proof using All.
    intros Hlm Hld Hlv. destruct (mask_assign_lookup m dst vals) as (res & H1 & H2 & H3).
    - lia.
    - rewrite Hlm, Hlv. apply rank_total.
    - exists res. split; [done|]. split; [lia|]. split.
      + intros r c Hr Hc. rewrite (H3 _ _ (Hm (r0 + r) (c0 + c) ltac:(lia) ltac:(lia))).
        rewrite !bool_decide_eq_true_2 by lia. simpl. by rewrite rank_rect.
      + intros r c Hr Hc Hn. rewrite (H3 _ _ (Hm r c ltac:(lia) ltac:(lia))).
        rewrite <- bool_decide_and. rewrite bool_decide_eq_false_2 by done. done.
  Qed.
End rect_mask.

(** ** index_of *)
Lemma index_of_uniform lo s n i : 0 < s -> (i < n)%nat -> index_of (uniform lo s n) (lo + Z.of_nat i * s) = Some i.
Proof.
  intros Hs. revert lo n. induction i as [|i IH]; intros lo n Hi; (destruct n as [|n]; [lia|]); rewrite uniform_cons; cbn [index_of].
  - rewrite decide_True by lia. done.
  - rewrite decide_False by nia. replace (lo + Z.of_nat (S i) * s) with ((lo + s) + Z.of_nat i * s) by lia.
    rewrite IH by lia. done.
Qed.

(** ** Content restricted to a square *)
Lemma content_in_app x y s a b : content_in x y s (a ++ b) = content_in x y s a ++ content_in x y s b.
Proof. unfold content_in. by rewrite map_app, filter_app. Qed.
Lemma content_in_single x y s c d :
  content_in x y s [(c, d)] =
  match filter (fun p => in_square x y s (px p) (py p)) d with [] => [] | l => [(c, l)] end.
Proof.
  unfold content_in. simpl. rewrite filter_cons. simpl.
  destruct (filter (fun p => in_square x y s (px p) (py p)) d) eqn:E; [|done].
  rewrite decide_False; [done|]. intros H. by apply H.
Qed.
Lemma content_in_nil_app x y s a c d :
  filter (fun p => in_square x y s (px p) (py p)) d = [] ->
  content_in x y s (a ++ [(c, d)]) = content_in x y s a.
Proof. intros H. rewrite content_in_app, content_in_single, H. by rewrite app_nil_r. Qed.
Lemma content_in_cons_app x y s a c d :
  filter (fun p => in_square x y s (px p) (py p)) d <> [] ->
  content_in x y s (a ++ [(c, d)]) = content_in x y s a ++ [(c, filter (fun p => in_square x y s (px p) (py p)) d)].
Proof.
  intros H. rewrite content_in_app, content_in_single.
  by destruct (filter (fun p => in_square x y s (px p) (py p)) d).
Qed.
Lemma content_in_drop x y s ct c : content_in x y s (drop_c ct c) = drop_c (content_in x y s ct) c.
Proof.
  unfold content_in, drop_c. induction ct as [|[k d] ct IH]; [done|]. rewrite filter_cons. cbn [map fst snd].
  destruct (decide (k <> c)) as [H|H]; cbn [map fst snd]; rewrite ?filter_cons; cbn [fst snd].
  - destruct (decide _); rewrite ?filter_cons; cbn [fst snd]; [rewrite decide_True by done; by f_equal|done].
  - destruct (decide _); rewrite ?filter_cons; cbn [fst snd]; [by rewrite decide_False by done|done].
Qed.
Lemma content_in_keys x y s ct c : c ∈ (content_in x y s ct).*1 -> c ∈ ct.*1.
Proof.
  unfold content_in. intros ([k d] & -> & Hk)%elem_of_list_fmap. apply elem_of_list_filter in Hk as [_ Hk].
  apply elem_of_list_fmap in Hk as ([k' d'] & Heq & Hk). injection Heq as -> _. apply elem_of_list_fmap. by exists (k', d').
Qed.
Lemma content_in_nodup x y s ct : NoDup ct.*1 -> NoDup (content_in x y s ct).*1.
Proof.
  intros H. unfold content_in. induction ct as [|[k d] ct IH]; [constructor|].
  cbn [map]. csimpl in H. apply NoDup_cons in H as [Hk H]. rewrite filter_cons. cbn [fst snd].
  destruct (decide _); [|by apply IH]. csimpl. apply NoDup_cons. split; [|by apply IH].
  intros Hin. apply Hk. by eapply content_in_keys.
Qed.
Lemma content_in_nonempty x y s ct : Forall (fun cp : string * list point => cp.2 <> []) (content_in x y s ct).
Proof. unfold content_in. apply Forall_forall. intros cp H%elem_of_list_filter. tauto. Qed.
Lemma content_in_points x y s ct :
  all_points (content_in x y s ct) = filter (fun p => in_square x y s (px p) (py p)) (all_points ct).
Proof.
  unfold all_points, content_in. induction ct as [|[k d] ct IH]; [done|]. cbn [map]. rewrite filter_cons. cbn [fst snd].
  csimpl. rewrite filter_app. destruct (decide _) as [H|H].
  - csimpl. by rewrite IH.
  - rewrite IH. destruct (filter _ d); [done|]. exfalso. by apply H.
Qed.
Lemma content_in_inside x y s ct :
  Forall (fun p => in_square x y s (px p) (py p)) (all_points (content_in x y s ct)).
Proof. rewrite content_in_points. apply Forall_forall. intros p H%elem_of_list_filter. tauto. Qed.
Lemma content_in_empty x y s ct :
  content_in x y s ct = [] <-> Forall (fun p => ~ in_square x y s (px p) (py p)) (all_points ct).
Proof.
  split.
  - intros H. assert (Hp := content_in_points x y s ct). rewrite H in Hp. simpl in Hp.
    apply Forall_forall. intros p Hp' Hin. assert (p ∈ ([] : list point)); [|by eapply not_elem_of_nil].
    change ([] : list point) with (all_points []). rewrite Hp. by apply elem_of_list_filter.
  - intros H. assert (Hp := content_in_points x y s ct).
    assert (filter (fun p => in_square x y s (px p) (py p)) (all_points ct) = []) as Hf.
    { destruct (filter _ _) as [|p l] eqn:E; [done|].
      assert (p ∈ p :: l) as Hin by left. rewrite <- E in Hin. apply elem_of_list_filter in Hin as [H1 H2].
      rewrite Forall_forall in H. by destruct (H p). }
    rewrite Hf in Hp. assert (Hn := content_in_nonempty x y s ct).
    destruct (content_in x y s ct) as [|[k d] r]; [done|]. apply Forall_cons in Hn as [Hn _].
    unfold all_points in Hp. simpl in Hp. apply app_eq_nil in Hp as [Hp _]. done.
Qed.
Lemma content_in_all x y s ct :
  Forall (fun cp : string * list point => cp.2 <> []) ct ->
  Forall (fun p => in_square x y s (px p) (py p)) (all_points ct) -> content_in x y s ct = ct.
Proof.
  unfold content_in, all_points. induction ct as [|[k d] ct IH]; intros Hn Hf; [done|]. csimpl in Hf. apply Forall_app in Hf as [Hd Hf].
  apply Forall_cons in Hn as [Hn0 Hn]. cbn [map]. rewrite filter_cons. cbn [fst snd].
  assert (filter (fun p => in_square x y s (px p) (py p)) d = d) as ->.
  { clear -Hd. induction Hd; [done|]. rewrite filter_cons, decide_True by done. by f_equal. }
  rewrite decide_True by done. by rewrite IH.
Qed.
Lemma all_points_nil_iff (ct : content) :
  Forall (fun cp : string * list point => cp.2 <> []) ct -> all_points ct = [] <-> ct = [].
Proof.
  intros H. split; [|by intros ->]. intros Hp. destruct ct as [|[k d] r]; [done|].
  apply Forall_cons in H as [H _]. unfold all_points in Hp. simpl in Hp. by apply app_eq_nil in Hp as [Hp _].
Qed.

(** Nested squares *)
Lemma filter_filter_impl {A} (P Q : A -> Prop) `{!forall x, Decision (P x)} `{!forall x, Decision (Q x)} (l : list A) :
  (forall x, P x -> Q x) -> filter P (filter Q l) = filter P l.
Proof.
  intros Himp. induction l as [|a l IH]; [done|]. rewrite !filter_cons.
  destruct (decide (Q a)) as [HQ|HQ]; [rewrite filter_cons|].
  - destruct (decide (P a)); by rewrite IH.
  - rewrite (decide_False (P := P a)); [done|]. intros HP. by apply HQ, Himp.
Qed.

(** ** Loops *)
Lemma oloop_ok {A S} (f : S -> A -> out S) (l : list A) (Inv : list A -> S -> Prop) s :
  Inv [] s ->
  (forall done a rest s, l = done ++ a :: rest -> Inv done s ->
     exn_of (f s a) = None /\ Inv (done ++ [a]) (st_of (f s a))) ->
  exn_of (oloop f l s) = None /\ Inv l (st_of (oloop f l s)).
Proof.
  intros H0 Hstep. cut (forall dn l' s, l = dn ++ l' -> Inv dn s ->
    exn_of (oloop f l' s) = None /\ Inv (dn ++ l') (st_of (oloop f l' s))).
  { intros H. by apply (H [] l s). }
  intros dn l'. revert dn. induction l' as [|a l' IH]; intros dn s' Hsub HI; simpl.
  - by rewrite app_nil_r.
  - destruct (Hstep dn a l' s') as [He HI']; [done|done|]. rewrite He. simpl.
    replace (dn ++ a :: l') with ((dn ++ [a]) ++ l') in Hsub |- * by (by rewrite <- app_assoc).
    by apply IH.
Qed.
(** Without knowing that steps succeed. *)
Lemma oloop_inv {A S} (f : S -> A -> out S) (l : list A) (I : S -> Prop) s :
  I s -> (forall a s, a ∈ l -> I s -> I (st_of (f s a))) -> I (st_of (oloop f l s)).
Proof.
  revert s. induction l as [|a l IH]; intros s HI Hstep; simpl; [done|].
  assert (I (st_of (f s a))) by (apply Hstep; [left|done]).
  destruct (exn_of (f s a)); [done|]. simpl. apply IH; [done|]. intros b s' Hb. apply Hstep. by right.
Qed.
Lemma oloop_inv_ok {A S} (f : S -> A -> out S) (l : list A) (Inv : list A -> S -> Prop) s :
  Inv [] s ->
  (forall done a rest s, l = done ++ a :: rest -> Inv done s -> exn_of (f s a) = None ->
     Inv (done ++ [a]) (st_of (f s a))) ->
  exn_of (oloop f l s) = None -> Inv l (st_of (oloop f l s)).
Proof.
  intros H0 Hstep. cut (forall dn l' s, l = dn ++ l' -> Inv dn s ->
    exn_of (oloop f l' s) = None -> Inv (dn ++ l') (st_of (oloop f l' s))).
  { intros H. by apply (H [] l s). }
  intros dn l'. revert dn. induction l' as [|a l' IH]; intros dn s' Hsub HI; simpl.
  - by rewrite app_nil_r.
  - destruct (exn_of (f s' a)) eqn:He; [congruence|]. simpl. pose proof (Hstep dn a l' s' Hsub HI He) as HI'.
    replace (dn ++ a :: l') with ((dn ++ [a]) ++ l') in Hsub |- * by (by rewrite <- app_assoc).
    by apply IH.
Qed.
(** An invariant of the steps that succeed, and a consequence that also holds when one raises. *)
Lemma oloop_both {A S} (f : S -> A -> out S) (l : list A) (Inv : list A -> S -> Prop) (Q : S -> Prop) s :
  Inv [] s -> (forall dn s, Inv dn s -> Q s) ->
  (forall done a rest s, l = done ++ a :: rest -> Inv done s ->
     Q (st_of (f s a)) /\ (exn_of (f s a) = None -> Inv (done ++ [a]) (st_of (f s a)))) ->
  Q (st_of (oloop f l s)) /\ (exn_of (oloop f l s) = None -> Inv l (st_of (oloop f l s))).
Proof.
  intros H0 HQ Hstep. cut (forall dn l' s, l = dn ++ l' -> Inv dn s ->
    Q (st_of (oloop f l' s)) /\ (exn_of (oloop f l' s) = None -> Inv (dn ++ l') (st_of (oloop f l' s)))).
  { intros H. by apply (H [] l s). }
  intros dn l'. revert dn. induction l' as [|a l' IH]; intros dn s' Hsub HI; simpl.
  - rewrite app_nil_r. split; [by eapply HQ|done].
  - destruct (Hstep dn a l' s' Hsub HI) as [H1 H2]. destruct (exn_of (f s' a)) eqn:E.
    + split; [done|]. by rewrite E.
    + cbn [st_of exn_of]. replace (dn ++ a :: l') with ((dn ++ [a]) ++ l') in Hsub |- * by (by rewrite <- app_assoc).
      by apply IH; [|apply H2].
Qed.


(** ** Extents *)
Lemma foldl_min_le a l : foldl Z.min a l <= a /\ forall x, x ∈ l -> foldl Z.min a l <= x.
Proof.
  revert a. induction l as [|b l IH]; intros a; simpl.
  - split; [lia|]. by intros x ?%elem_of_nil.
  - destruct (IH (Z.min a b)) as [H1 H2]. split; [lia|]. intros x [->|Hx]%elem_of_cons; [lia|auto].
Qed.
Lemma foldl_max_ge a l : a <= foldl Z.max a l /\ forall x, x ∈ l -> x <= foldl Z.max a l.
Proof.
  revert a. induction l as [|b l IH]; intros a; simpl.
  - split; [lia|]. by intros x ?%elem_of_nil.
  - destruct (IH (Z.max a b)) as [H1 H2]. split; [lia|]. intros x [->|Hx]%elem_of_cons; [lia|auto].
Qed.
Lemma zmin_le l m : zmin l = Some m -> forall x, x ∈ l -> m <= x.
Proof.
  destruct l as [|a l]; [done|]. intros [= <-] x Hx. destruct (foldl_min_le a l) as [H1 H2]. apply elem_of_cons in Hx as [->|Hx]; auto.
Qed.
Lemma zmax_ge l m : zmax l = Some m -> forall x, x ∈ l -> x <= m.
Proof.
  destruct l as [|a l]; [done|]. intros [= <-] x Hx. destruct (foldl_max_ge a l) as [H1 H2]. apply elem_of_cons in Hx as [->|Hx]; auto.
Qed.

Definition in_ext (x : ext) (p : point) : Prop := x0 x <= px p <= x1 x /\ y0 x <= py p <= y1 x.
Lemma data_ext_Ok d : d <> [] -> exists x, data_ext d = Ok x /\ Forall (in_ext x) d.
Proof.
  intros Hd. destruct d as [|p d]; [done|]. unfold data_ext.
  assert (Hz : forall f : point -> Z, exists a b, zmin (map f (p :: d)) = Some a /\ zmax (map f (p :: d)) = Some b /\
    forall q, q ∈ p :: d -> a <= f q <= b).
  { intros f. destruct (zmin (map f (p :: d))) as [a|] eqn:Ea; [|done].
    destruct (zmax (map f (p :: d))) as [b|] eqn:Eb; [|done]. exists a, b. do 2 (split; [done|]). intros q Hq.
    assert (f q ∈ map f (p :: d)) by (apply (elem_of_list_fmap_1 f); done).
    split; [by eapply zmin_le|by eapply zmax_ge]. }
  destruct (Hz px) as (a & b & -> & -> & H1), (Hz py) as (a' & b' & -> & -> & H2).
  eexists. split; [done|]. apply Forall_forall. intros q Hq. split; simpl; auto.
Qed.
Lemma data_ext_nil x : data_ext [] <> Ok x.
Proof. done. Qed.

Lemma adjust_lo_spec lo s : 0 < s -> adjust_lo lo 0 s <= lo /\ adjust_lo lo 0 s mod s = 0 /\ lo < adjust_lo lo 0 s + s.
Proof.
  intros. unfold adjust_lo, floor_div. rewrite Z.sub_0_r.
  split; [|split].
  - pose proof (Z.mul_div_le lo s ltac:(lia)). lia.
  - by rewrite Z.mod_mul by lia.
  - pose proof (Z.mul_succ_div_gt lo s ltac:(lia)). lia.
Qed.
Lemma adjust_hi_spec hi s : 0 < s -> hi < adjust_hi hi 0 s /\ adjust_hi hi 0 s mod s = 0 /\ adjust_hi hi 0 s <= hi + s.
Proof.
  intros. unfold adjust_hi. rewrite Z.sub_0_r. pose proof (ceil_div_spec hi s ltac:(lia)) as Hc.
  destruct (ceil_div hi s * s =? hi) eqn:E.
  - apply Z.eqb_eq in E. rewrite E. split; [lia|]. split; [|lia].
    rewrite <- E. rewrite Z.add_mod, Z.mod_mul, Z.mod_same by lia. done.
  - apply Z.eqb_neq in E. split; [lia|]. split; [|lia]. by rewrite Z.mod_mul by lia.
Qed.
