(** Facts about folders. *)
From Verif Require Import Py Nd Numpy Point Bin Algorithms Tile Time Meta Disk Grid GridOps Store PyFacts.
Open Scope Z_scope.

(** ** Entries of a folder *)
Lemma dget_fsub f n p : dget (fsub f n) p = dget f (n :: p).
Proof.
  induction f as [|[q v] f IH]; [done|]. unfold fsub in *. cbn [omap list_omap]. destruct q as [|n' q]; cbn [fst snd].
  - rewrite IH. cbn [dget]. by rewrite decide_False by done.
  - destruct (decide (n' = n)) as [->|Hn]; cbn [dget]; rewrite IH.
    + destruct (decide (p = q)) as [->|Hp]; [by rewrite decide_True|rewrite decide_False; [done|congruence]].
    + by rewrite (decide_False (P := n :: p = n' :: q)) by congruence.
Qed.
Lemma exists_fsub f n p : fs_exists (fsub f n) p = fs_exists f (n :: p).
Proof. unfold fs_exists. rewrite !dmem_dget, dget_fsub. done. Qed.
Lemma read_fsub f n p : fs_read (fsub f n) p = fs_read f (n :: p).
Proof. unfold fs_read. by rewrite dget_fsub. Qed.
Lemma fsub_cons kv f n : fsub (kv :: f) n = match kv.1 with n' :: p => if decide (n' = n) then [(p, kv.2)] else [] | [] => [] end ++ fsub f n.
Proof. unfold fsub. cbn. destruct kv as [[|n' q] v]; cbn; [done|]. by destruct (decide (n' = n)). Qed.
Lemma fsub_dset f n p v : fsub (dset f (n :: p) v) n = dset (fsub f n) p v.
Proof.
  induction f as [|[q w] f IH]; cbn [dset].
  - rewrite fsub_cons. cbn. by rewrite decide_True.
  - rewrite fsub_cons. destruct q as [|n' q]; cbn [fst snd app].
    + rewrite decide_False by done. rewrite fsub_cons. cbn. done.
    + destruct (decide (n :: p = n' :: q)) as [[= <- <-]|Hne].
      * rewrite fsub_cons. cbn [fst snd]. rewrite decide_True by done. rewrite decide_True by done. cbn [app dset]. by rewrite decide_True.
      * rewrite fsub_cons. cbn [fst snd]. rewrite IH. destruct (decide (n' = n)) as [->|Hn]; cbn; [|done]. rewrite decide_False; [done|congruence].
Qed.
Lemma fsub_dset_other f p v n' : (forall q, p <> n' :: q) -> fsub (dset f p v) n' = fsub f n'.
Proof.
  intros Hp. induction f as [|[q w] f IH]; cbn [dset].
  - rewrite fsub_cons. destruct p as [|m p]; cbn; [done|]. destruct (decide (m = n')) as [->|]; [by destruct (Hp p)|done].
  - destruct (decide (p = q)) as [->|]; rewrite !fsub_cons; cbn [fst snd]; [|by rewrite IH].
    destruct q as [|m q]; [done|]. destruct (decide (m = n')) as [->|]; [by destruct (Hp q)|done].
Qed.
Lemma fsub_filter (P Q : path -> bool) f n : (forall q, P (n :: q) = Q q) ->
  fsub (filter (fun kv : path * node => P kv.1 = false) f) n = filter (fun kv : path * node => Q kv.1 = false) (fsub f n).
Proof.
  intros H. induction f as [|[q v] f IH]; [done|]. rewrite filter_cons, fsub_cons. cbn [fst snd]. rewrite filter_app, <- IH.
  destruct q as [|m q]; [by destruct (decide _); rewrite ?fsub_cons|]. destruct (decide (m = n)) as [->|Hn].
  - rewrite filter_cons, filter_nil. cbn [fst]. rewrite <- H. destruct (decide (P (n :: q) = false)); [|done]. rewrite fsub_cons. cbn. by rewrite decide_True.
  - destruct (decide (P (m :: q) = false)); [|done]. rewrite fsub_cons. cbn. by rewrite decide_False.
Qed.
Lemma fsub_filter_other (P : path -> bool) f n : (forall q, P (n :: q) = false) -> fsub (filter (fun kv : path * node => P kv.1 = false) f) n = fsub f n.
Proof.
  intros H. induction f as [|[q v] f IH]; [done|]. rewrite filter_cons, !fsub_cons. cbn [fst snd]. rewrite <- IH.
  destruct (decide (P q = false)) as [|Hq]; [by rewrite fsub_cons|]. destruct q as [|m q]; [done|]. destruct (decide (m = n)) as [->|]; [by rewrite H in Hq|done].
Qed.
Lemma under_cons n p q : under (n :: p) (n :: q) = under p q.
Proof. unfold under. apply bool_decide_ext. split; [intros [k [= ->]]; by exists k|intros [k ->]; by exists k]. Qed.
Lemma under_other n p m q : n <> m -> under (n :: p) (m :: q) = false.
Proof. intros H. unfold under. apply bool_decide_eq_false. intros [k [= ? _]]. congruence. Qed.
Lemma under_cell_cons n p q : under_cell (n :: p) (n :: q) = under_cell p q.
Proof.
  unfold under_cell. destruct (decide (p `prefix_of` q)) as [H|H], (decide (n :: p `prefix_of` n :: q)) as [H'|H']; try done.
  - destruct H' . destruct H as [k ->]. by exists k.
  - destruct H. destruct H' as [k [= ->]]. by exists k.
Qed.
Lemma under_cell_other n p m q : n <> m -> under_cell (n :: p) (m :: q) = false.
Proof. intros H. unfold under_cell. destruct (decide _) as [[k [= ? _]]|]; [congruence|done]. Qed.

(** ** Steps inside a folder *)
Lemma step_in f n s : fsub (fs_step f (prim_in n s)) n = fs_step (fsub f n) s.
Proof.
  destruct s as [p|p l|p|p]; cbn.
  - rewrite exists_fsub. destruct (fs_exists f (n :: p)); [done|]. apply fsub_dset.
  - apply fsub_dset.
  - unfold fs_rm. apply (fsub_filter (under (n :: p)) (under p)). intros q. apply under_cons.
  - apply (fsub_filter (under_cell (n :: p)) (under_cell p)). intros q. apply under_cell_cons.
Qed.
Lemma step_out f n s m : n <> m -> fsub (fs_step f (prim_in n s)) m = fsub f m.
Proof.
  intros H. destruct s as [p|p l|p|p]; cbn.
  - destruct (fs_exists f (n :: p)); [done|]. apply fsub_dset_other. congruence.
  - apply fsub_dset_other. congruence.
  - unfold fs_rm. apply (fsub_filter_other (under (n :: p))). intros q. by apply under_other.
  - apply (fsub_filter_other (under_cell (n :: p))). intros q. by apply under_cell_other.
Qed.
Lemma run_in f n l : fsub (fs_run f (prims_in n l)) n = fs_run (fsub f n) l.
Proof. revert f. induction l as [|s l IH]; intros f; [done|]. unfold prims_in in *. cbn [map fs_run foldl]. unfold fs_run in *. by rewrite IH, step_in. Qed.
Lemma run_out f n l m : n <> m -> fsub (fs_run f (prims_in n l)) m = fsub f m.
Proof. intros H. revert f. induction l as [|s l IH]; intros f; [done|]. unfold prims_in in *. cbn [map fs_run foldl]. unfold fs_run in *. by rewrite IH, step_out. Qed.
Lemma run_app f a b : fs_run f (a ++ b) = fs_run (fs_run f a) b.
Proof. unfold fs_run. apply foldl_app. Qed.
Lemma dget_filter (P : path -> bool) (f : fs) p : dget (filter (fun kv : path * node => P kv.1 = false) f) p = if P p then None else dget f p.
Proof.
  induction f as [|[q v] f IH]; [by destruct (P p)|]. rewrite filter_cons. cbn [fst dget]. destruct (decide (P q = false)) as [Hq|Hq].
  - cbn [dget]. rewrite IH. destruct (decide (p = q)) as [->|]; [by rewrite Hq|done].
  - rewrite IH. destruct (decide (p = q)) as [->|]; [|done]. by destruct (P q).
Qed.
(** Entries outside the folder are left alone. *)
Lemma step_top f n s p : head p <> Some n -> dget (fs_step f (prim_in n s)) p = dget f p.
Proof.
  intros H. assert (Hp : forall q, p <> n :: q) by (intros q ->; done).
  destruct s as [q|q l|q|q]; cbn.
  - destruct (fs_exists f (n :: q)); [done|]. by rewrite dget_dset_ne.
  - by rewrite dget_dset_ne.
  - unfold fs_rm. rewrite (dget_filter (under (n :: q))). destruct p as [|m p]; [done|]. by rewrite under_other by (intros ->; done).
  - rewrite (dget_filter (under_cell (n :: q))). destruct p as [|m p]; [done|]. by rewrite under_cell_other by (intros ->; done).
Qed.
Lemma run_top f n l p : head p <> Some n -> dget (fs_run f (prims_in n l)) p = dget f p.
Proof. intros H. revert f. induction l as [|s l IH]; intros f; [done|]. unfold prims_in, fs_run in *. cbn [map foldl]. by rewrite IH, step_top. Qed.

(** ** Writing arrays *)
Definition arrays (ws : list (fname * leaf)) : list prim := concat (map (fun w => save_array [w.1] w.2) ws).
Lemma array_run f n l p : dget (fs_run f (save_array [n] l)) p = if decide (p = [n]) then Some (File l) else if under [n] p then None else dget f p.
Proof.
  unfold save_array, fs_run. cbn [foldl fs_step]. rewrite dget_dset. destruct (decide (p = [n])); [done|]. unfold fs_rm. apply (dget_filter (under [n])).
Qed.
Lemma under_one n m : under [n] [m] = bool_decide (n = m).
Proof. unfold under. apply bool_decide_ext. split; [by intros [k [= -> _]]|intros ->; by exists []]. Qed.
Lemma arrays_run ws : forall f n, NoDup ws.*1 -> dget (fs_run f (arrays ws)) [n] = match dget ws n with Some l => Some (File l) | None => dget f [n] end.
Proof.
  induction ws as [|[m l] ws IH]; intros f n; [done|]. cbn [fmap list_fmap fst]. intros [Hm Hnd]%NoDup_cons. unfold arrays in *. cbn [map concat]. rewrite run_app, IH by done.
  cbn [dget fst snd]. rewrite array_run. destruct (decide (n = m)) as [->|Hn].
  - rewrite decide_True by done. destruct (dget ws m) eqn:E; [|done]. exfalso. apply Hm. apply dget_is_Some. by rewrite E.
  - rewrite decide_False by congruence. rewrite under_one, bool_decide_eq_false_2 by congruence. done.
Qed.
Lemma arrays_top ws : forall f p, (forall n, n ∈ ws.*1 -> under [n] p = false) -> dget (fs_run f (arrays ws)) p = dget f p.
Proof.
  induction ws as [|[m l] ws IH]; intros f p H; [done|]. unfold arrays in *. cbn [map concat]. rewrite run_app, IH by (intros n Hn; apply H; by right).
  rewrite array_run. cbn [fst]. specialize (H m (elem_of_list_here _ _)). rewrite H. rewrite decide_False; [done|]. intros ->. by rewrite under_one, bool_decide_eq_true_2 in H.
Qed.
