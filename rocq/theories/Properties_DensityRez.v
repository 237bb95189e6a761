(** Properties of the resolution chosen from the density of the soundings: C122. *)
From Coq Require Import Lqa.
From Verif Require Import Py Nd Numpy Point Bin Algorithms Tile Spec TileExec Samples
  PyFacts NdFacts NumpyFacts AlgFacts BinFacts TileFacts TileGridFacts TileSpecFacts TileRunFacts TileHistFacts
  ShoalFacts TilePropFacts TileQueryFacts DensityRezFacts.
Open Scope Z_scope.

(** ** C122 *)
Section tile.
  Context (e : env) (x y s : Z) (b : bool) (t : tile) (ct : content) (f : bool) (start : option Z) (noise : option Q) (n : nat) (r : Z).
  Context (Hs : 0 < s) (He : 0 < e_tpq e) (HH : tile_history e x y s b t ct f) (Hst : start_ok e start).
  Context (Hn : s = Z.of_nat n * coarse e s start) (Hr : t_resolution_by_density e t start noise = Ok r).
  (** The coarse cells and the number of soundings that they hold *)
  Let cells := populated x y (coarse e s start) n (all_points ct).
  Let held (rc : nat * nat) : nat := length (points_in_cell x y (coarse e s start) rc.1 rc.2 (all_points ct)).
  Let wanted : Q := (10 * (1 + default (3 # 4) noise))%Q.
  Let metre : Q := metres e (coarse e s start).

  Lemma tile_points : cells <> [] \/ all_points ct <> [] -> t_data t = Some (all_points ct).
  Proof using Hs HH.
    intros Hf. destruct (history_rep _ _ _ _ _ _ _ _ Hs HH) as [HR _].
    pose proof (tr_data _ _ HR) as E. unfold pts in E. destruct (t_data t) as [d|] eqn:Et; cbn in E; [by rewrite E|]. apply (tr_none _ _ HR) in Et. subst ct.
    exfalso. destruct Hf as [Hf|Hf]; [|done]. apply Hf. unfold cells, populated. clear. induction (list_prod _ _); [done|]. rewrite filter_cons, decide_False; [done|cbn; lia].
  Qed.
  Lemma enough : (3 * (n * n) < 4 * length cells)%nat -> cells <> [].
  Proof using. intros H E. rewrite E in H. cbn in H. lia. Qed.

  (** More than three quarters of the coarse cells hold soundings and none holds more than [a]: no resolution at which
      cells of that density hold at most [wanted] soundings is coarser than the one chosen. *)
Theorem C122_not_finer k v a : (3 * (n * n) < 4 * length cells)%nat -> sqrt_sound e -> (0 < default (3 # 4) noise)%Q -> (k, v) ∈ documented_bands ->
    (forall rc, rc ∈ cells -> (held rc <= a)%nat) -> ((v # 4) * (v # 4) * qnat a <= wanted * (metre * metre))%Q ->
    Z.min (v * e_tpq e) s <= r.
  Proof using Hs He HH Hst Hn Hr.
    intros Hf Hq Hno Hv Ha HK. pose proof (tile_points (or_introl (enough Hf))) as Hd.
    destruct (reach_good _ _ _ _ _ _ _ Hs (history_reach _ _ _ _ _ _ _ _ HH)) as (HG & (<- & <- & <- & _) & _).
    assert (Hr' : t_resolution_by_density e t start (Some (default (3 # 4) noise)) = Ok r) by (destruct noise; exact Hr).
    exact (proj1 (density_dense e t (all_points ct) start (default (3 # 4) noise) n r He HG Hd Hst Hn Hr' Hf Hq ltac:(lra) k v a Hv) Ha HK).
  Qed.
  (** None holds fewer than [a]: no resolution at which cells of that density hold at least [wanted] soundings is finer
      than the one chosen. *)
Theorem C122_not_coarser k v a : (3 * (n * n) < 4 * length cells)%nat -> sqrt_sound e -> (0 < default (3 # 4) noise)%Q -> (k, v) ∈ documented_bands ->
    (forall rc, rc ∈ cells -> (a <= held rc)%nat) -> (wanted * (metre * metre) <= (v # 4) * (v # 4) * qnat a)%Q ->
    r <= v * e_tpq e.
  Proof using Hs He HH Hst Hn Hr.
    intros Hf Hq Hno Hv Ha HK. pose proof (tile_points (or_introl (enough Hf))) as Hd.
    destruct (reach_good _ _ _ _ _ _ _ Hs (history_reach _ _ _ _ _ _ _ _ HH)) as (HG & (<- & <- & <- & _) & _).
    assert (Hr' : t_resolution_by_density e t start (Some (default (3 # 4) noise)) = Ok r) by (destruct noise; exact Hr).
    exact (proj2 (density_dense e t (all_points ct) start (default (3 # 4) noise) n r He HG Hd Hst Hn Hr' Hf Hq ltac:(lra) k v a Hv) Ha HK).
  Qed.
  (** At most three quarters hold soundings: the first band of the table that reaches the mean depth counts, the last
      band when none does; the density does not matter. *)
Theorem C122_sparse m : (4 * length cells <= 3 * (n * n))%nat -> is_mean (map pz (all_points ct)) m ->
    exists i k v, documented_bands !! i = Some (k, v) /\ r = Z.min (v * e_tpq e) s /\
      (forall j k' v', (j < i)%nat -> documented_bands !! j = Some (k', v') -> (inject_Z k' < m)%Q) /\
      ((m <= inject_Z k)%Q \/ (i = 12%nat /\ inject_Z k < m)%Q).
  Proof using Hs He HH Hst Hn Hr.
    intros Hf Hm. assert (Hd : t_data t = Some (all_points ct)).
    { apply tile_points. right. intros E. destruct Hm as [Hm _]. rewrite E in Hm. done. }
    destruct (reach_good _ _ _ _ _ _ _ Hs (history_reach _ _ _ _ _ _ _ _ HH)) as (HG & (<- & <- & <- & _) & _).
    assert (Hr' : t_resolution_by_density e t start (Some (default (3 # 4) noise)) = Ok r) by (destruct noise; exact Hr).
    exact (density_sparse e t (all_points ct) start (default (3 # 4) noise) n r He HG Hd Hst Hn Hr' m Hf Hm).
  Qed.
End tile.
Print Assumptions C122_not_finer.
Print Assumptions C122_not_coarser.
Print Assumptions C122_sparse.

(** A tile of 4 m with 20 soundings in each quarter: cells of 2 m. The square root rounds down to quarters. *)
Definition env_root : env :=
  Env (Dtype false false) 1 true row_cube (fun q => Z.sqrt (Qfloor (16 * q)) # 4)%Q (fun l => (qnat (length l), 0%Q)).
Example root_sound : sqrt_sound env_root.
Proof.
  intros k v q Hv. pose proof (bands_pos k v Hv) as Hp. cbn [e_sqrt env_root]. split; intros H; unfold Qle; cbn [Qnum Qden]; apply Z.mul_le_mono_nonneg_r; try lia.
  - assert (E : (inject_Z (v * v) <= 16 * q)%Q) by (assert (E : (inject_Z (v * v) == 16 * ((v # 4) * (v # 4)))%Q) by (unfold Qeq, inject_Z, Qmult; cbn; lia); lra).
    apply Qfloor_resp_le in E. rewrite Qfloor_Z in E. apply Z.sqrt_le_mono in E. rewrite Z.sqrt_square in E by lia. exact E.
  - assert (E : (16 * q <= inject_Z (v * v))%Q) by (assert (E : (inject_Z (v * v) == 16 * ((v # 4) * (v # 4)))%Q) by (unfold Qeq, inject_Z, Qmult; cbn; lia); lra).
    apply Qfloor_resp_le in E. rewrite Qfloor_Z in E. apply Z.sqrt_le_mono in E. rewrite Z.sqrt_square in E by lia. exact E.
Qed.
Definition quarter_points : list point := concat (map (fun p => repeat p 20) [Point 1 1 30 0 0; Point 9 1 30 0 0; Point 1 9 31 0 0; Point 9 9 31 0 0]).
Definition tile_q : tile := t_add_points (new_tile 0 0 16 false) quarter_points "a".
Example C122_case : t_resolution_by_density env_root tile_q (Some 8) (Some 1%Q) = Ok 8 /\ t_resolution_by_density env_root tile_q (Some 8) None = Ok 8 /\
  t_resolution_by_density env_root tile_q (Some 8) (Some (1 # 8)%Q) = Ok 8 /\ t_resolution_by_density env_root tile_q (Some 4) None = Ok 4 /\
  length (populated 0 0 8 2 quarter_points) = 4%nat /\ length (populated 0 0 4 4 quarter_points) = 4%nat.
Proof. vm_compute. repeat split. Qed.
