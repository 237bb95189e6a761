(** Facts about the extents of grids that soundings were only added to (C140). *)
From Verif Require Import Py Nd Numpy Point Bin Algorithms Tile Time Meta Disk Grid GridRun GridQuery GridOps
  Spec TileExec GridExec ExtentSpec PyFacts NdFacts NumpyFacts GridBaseFacts GridPlaceFacts GridInvFacts GridRootFacts GridEvolveFacts GridSrFacts GridPropFacts GridHistFacts.
Open Scope Z_scope.

Lemma added_history {T} (O : tile_ops T) e g0 g ds : added O g0 g ds -> exists ct, grid_history O e g0 g ct (concat ds) true /\ (ds <> [] -> ct <> []).
Proof.
  induction 1 as [|g ds d a H (ct & IH & _) Hx]; [exists []; split; [apply GH_new|done]|].
  exists (ct ++ [(a_container a, d)]). rewrite concat_app. cbn [concat]. rewrite app_nil_r. split; [by apply GH_add|]. intros _. by destruct ct.
Qed.

Section axis.
  Context (s : Z) (Hs : 0 < s).
  Lemma adjust_lo_near v w : v < w + s -> w mod s = 0 \/ w = v -> v < adjust_lo w 0 s + s.
  Proof using Hs.
    intros H [E|E]; unfold adjust_lo, floor_div; rewrite Z.sub_0_r; pose proof (Z.div_mod w s); pose proof (Z.mod_pos_bound w s Hs); nia.
  Qed.
  Lemma adjust_hi_near v : adjust_hi v 0 s <= v + s.
  Proof using Hs.
    unfold adjust_hi. rewrite Z.sub_0_r. pose proof (ceil_div_spec v s Hs) as Hc. destruct (_ =? _) eqn:E; [apply Z.eqb_eq in E; lia|nia].
  Qed.
  Lemma lo_near (f : point -> Z) (d D : list point) u w : zmin (map f d) = Some u ->
    w = u \/ (w mod s = 0 /\ exists p, p ∈ D /\ f p < w + s) -> exists p, p ∈ D ++ d /\ f p < adjust_lo w 0 s + s.
  Proof using Hs.
    intros Hu [->|[Hw (p & Hp & Hlt)]].
    - apply zmin_in, elem_of_list_fmap in Hu as (p & -> & Hp). exists p. split; [apply elem_of_app; by right|]. apply adjust_lo_near; [lia|by right].
    - exists p. split; [apply elem_of_app; by left|]. apply adjust_lo_near; [done|by left].
  Qed.
  Lemma hi_near (f : point -> Z) (d D : list point) (n : nat) u w : zmax (map f d) = Some u ->
    w = u \/ (exists p, p ∈ D /\ w - Z.of_nat n * s <= f p) -> exists p, p ∈ D ++ d /\ adjust_hi w 0 s - Z.of_nat (S n) * s <= f p.
  Proof using Hs.
    intros Hu H. pose proof (adjust_hi_near w) as Hw. destruct H as [->|(p & Hp & Hle)].
    - apply zmax_in, elem_of_list_fmap in Hu as (p & -> & Hp). exists p. split; [apply elem_of_app; by right|]. nia.
    - exists p. split; [apply elem_of_app; by left|]. nia.
  Qed.
  Lemma adjust_lo_mod v : adjust_lo v 0 s mod s = 0.
  Proof using Hs. unfold adjust_lo. apply Z.mod_mul. lia. Qed.
End axis.

Section tight.
  Context {T : Type} (O : tile_ops T) (m0 : gmeta) (rep : T -> Z -> Z -> content -> Prop) (g0 : grid T).
  Notation s := (m_tile_size m0).
  Context (L : tile_laws O m0 rep) (Hs : 0 < s) (Hgrow : m_can_grow m0 = true) (Hox : m_origin_x m0 = 0) (Hoy : m_origin_y m0 = 0).
  Context (H0 : g_tiles g0 = None) (HI : forall g ds, added O g0 g ds -> exists ct seen ok, root_inv m0 rep g ct seen ok).

  Definition near (n : nat) (d : list point) (x : ext) : Prop :=
    x0 x mod s = 0 /\ y0 x mod s = 0 /\
    (exists p, p ∈ d /\ px p < x0 x + s) /\ (exists p, p ∈ d /\ py p < y0 x + s) /\
    (exists p, p ∈ d /\ x1 x - Z.of_nat n * s <= px p) /\ (exists p, p ∈ d /\ y1 x - Z.of_nat n * s <= py p).
  Lemma added_near g ds : added O g0 g ds -> forall a y, g_tiles g = Some a -> m_ext (g_meta g) = Some y -> near (length ds) (concat ds) y.
  Proof using L Hs Hgrow Hox Hoy H0 HI.
    induction 1 as [|g ds d a H IH Hx]; intros arr y Ha Hy; [congruence|].
    destruct (HI g ds H) as (ct & seen & ok & Hr). destruct (add_extents O m0 rep L Hs Hgrow Hox Hoy g ct seen ok d a Hr Hx) as (x & Hd & E). rewrite E in Hy. injection Hy as <-.
    unfold data_ext in Hd. destruct (zmin (map px d)) as [u1|] eqn:Z1; [|done]. destruct (zmin (map py d)) as [u2|] eqn:Z2; [|done].
    destruct (zmax (map px d)) as [u3|] eqn:Z3; [|done]. destruct (zmax (map py d)) as [u4|] eqn:Z4; [|done]. injection Hd as <-.
    rewrite app_length. change (length [d]) with 1%nat. rewrite Nat.add_1_r, concat_app. cbn [concat]. rewrite app_nil_r.
    unfold adjust_extents. rewrite Hgrow, Hox, Hoy. unfold near. cbn [x0 y0 x1 y1].
    set (w := match g_tiles g, m_ext (g_meta g) with Some _, Some y => _ | _, _ => _ end).
    assert (HW : (x0 w = u1 \/ (x0 w mod s = 0 /\ exists p, p ∈ concat ds /\ px p < x0 w + s)) /\ (y0 w = u2 \/ (y0 w mod s = 0 /\ exists p, p ∈ concat ds /\ py p < y0 w + s)) /\
      (x1 w = u3 \/ exists p, p ∈ concat ds /\ x1 w - Z.of_nat (length ds) * s <= px p) /\ (y1 w = u4 \/ exists p, p ∈ concat ds /\ y1 w - Z.of_nat (length ds) * s <= py p)).
    { unfold w. destruct (g_tiles g) as [b|]; [|cbn; tauto]. destruct (m_ext (g_meta g)) as [y|]; [|cbn; tauto]. cbn [x0 y0 x1 y1].
      destruct (IH b y eq_refl eq_refl) as (M1 & M2 & N1 & N2 & N3 & N4).
      split; [destruct (Z.min_dec u1 (x0 y)) as [->| ->]; tauto|]. split; [destruct (Z.min_dec u2 (y0 y)) as [->| ->]; tauto|].
      split; [destruct (Z.max_dec u3 (x1 y)) as [->| ->]; tauto|]. destruct (Z.max_dec u4 (y1 y)) as [->| ->]; tauto. }
    clearbody w. destruct HW as (W1 & W2 & W3 & W4).
    split; [by apply adjust_lo_mod|]. split; [by apply adjust_lo_mod|].
    split; [by eapply lo_near|]. split; [by eapply lo_near|]. split; [by eapply hi_near|]. by eapply hi_near.
  Qed.
End tight.
