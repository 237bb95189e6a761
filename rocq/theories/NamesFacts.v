(** Facts about the text of names. *)
From Coq Require Import Ascii.
From stdpp Require Import pretty.
From Verif Require Import Py Nd Numpy Point Bin Algorithms Tile Time Meta Disk Names Convenience FolderSpec NameFacts.
Open Scope Z_scope.

Lemma cut_unique (c : ascii) (a b x y : list ascii) : ~ In c a -> ~ In c b -> a ++ c :: x = b ++ c :: y -> a = b /\ x = y.
Proof.
  revert b. induction a as [|d a IH]; intros [|d' b] Ha Hb E; cbn in *.
  - by injection E as ->.
  - injection E as -> _. destruct Hb. by left.
  - injection E as -> _. destruct Ha. by left.
  - injection E as -> E. destruct (IH b) as [-> ->]; [tauto|tauto|done|done].
Qed.
Lemma cut_none (c : ascii) (a x y : list ascii) : ~ In c y -> a ++ c :: x <> y.
Proof. intros H <-. apply H, in_app_iff. right. by left. Qed.
Lemma split_char_step c a x : forall cur, ~ In c a -> split_char c cur (a ++ c :: x) = (cur ++ a) :: split_char c [] x.
Proof.
  induction a as [|d a IH]; intros cur Ha; cbn [app split_char].
  - rewrite (proj2 (Ascii.eqb_eq c c) eq_refl). by rewrite app_nil_r.
  - destruct (Ascii.eqb d c) eqn:E; [apply Ascii.eqb_eq in E as ->; destruct Ha; by left|]. rewrite IH by (intros H; apply Ha; by right). by rewrite <- app_assoc.
Qed.

(** ** Digits *)
Definition digits : list ascii := list_ascii_of_string "0123456789".
Lemma pretty_char x : In (pretty_N_char x) digits.
Proof. unfold pretty_N_char, digits. cbn. repeat case_match; auto 12. Qed.
Lemma pretty_go_digits x : forall s, Forall (fun c => In c digits) (chars s) -> Forall (fun c => In c digits) (chars (pretty_N_go x s)).
Proof.
  induction (N.lt_wf_0 x) as [x _ IH]. intros s Hs. assert (x = 0 \/ 0 < x)%N as [->|Hx] by lia; [by rewrite pretty_N_go_0|].
  rewrite pretty_N_go_step by done. apply IH; [by apply N.div_lt|]. cbn. constructor; [apply pretty_char|done].
Qed.
Lemma pretty_go_ne x : forall s, s <> "" -> pretty_N_go x s <> "".
Proof.
  induction (N.lt_wf_0 x) as [x _ IH]. intros s Hs. assert (x = 0 \/ 0 < x)%N as [->|Hx] by lia; [by rewrite pretty_N_go_0|].
  rewrite pretty_N_go_step by done. apply IH; [by apply N.div_lt|done].
Qed.
Lemma pretty_digits (x : N) : Forall (fun c => In c digits) (chars (pretty x)).
Proof. unfold pretty, pretty_N. destruct (decide _); [repeat constructor; cbn; auto|]. apply pretty_go_digits. constructor. Qed.
Lemma pretty_ne (x : N) : pretty x <> "".
Proof. unfold pretty, pretty_N. destruct (decide _) as [|H]; [done|]. rewrite pretty_N_go_step by lia. by apply pretty_go_ne. Qed.
Lemma pretty_no (x : N) c : ~ In c digits -> ~ In c (chars (pretty x)).
Proof. intros H Hc. apply H. exact (proj1 (List.Forall_forall _ _) (pretty_digits x) c Hc). Qed.
Lemma pretty_head (x : N) : exists c l, chars (pretty x) = c :: l /\ In c digits.
Proof.
  pose proof (pretty_ne x) as H. pose proof (pretty_digits x) as D. destruct (pretty x) as [|c s]; [done|]. cbn in *. apply Forall_cons in D as [D _]. eauto.
Qed.

(** ** The repr of quarters *)
Definition frac (k : Z) : string := match k mod 4 with 0 => "0" | 1 => "25" | 2 => "5" | _ => "75" end.
Lemma frac_inj j k : frac j = frac k -> j mod 4 = k mod 4.
Proof. unfold frac. pose proof (Z.mod_pos_bound j 4). pose proof (Z.mod_pos_bound k 4). destruct (j mod 4) as [|[[]|[]|]|]; destruct (k mod 4) as [|[[]|[]|]|]; intros E; try done; try lia. Qed.
Lemma frac_chars k : Forall (fun c => In c digits) (chars (frac k)).
Proof. unfold frac. repeat case_match; cbn [chars list_ascii_of_string]; repeat (apply Forall_cons; split; [cbn; auto 12|]); constructor. Qed.
Lemma repr_chars k : chars (repr_quarters k) = (if k <? 0 then ["-"%char] else []) ++ chars (pretty (Z.to_N (Z.abs k / 4))) ++ "."%char :: chars (frac (Z.abs k)).
Proof. unfold repr_quarters. rewrite !chars_app. by destruct (k <? 0). Qed.
Lemma not_digit c : ~ In c digits <-> forallb (fun d => negb (Ascii.eqb c d)) digits = true.
Proof.
  rewrite forallb_forall. split.
  - intros H d Hd. apply negb_true_iff, Ascii.eqb_neq. by intros ->.
  - intros H Hc. specialize (H c Hc). by rewrite (proj2 (Ascii.eqb_eq c c) eq_refl) in H.
Qed.
Lemma repr_quarters_inj j k : repr_quarters j = repr_quarters k -> j = k.
Proof.
  intros E. apply (f_equal list_ascii_of_string) in E. rewrite !repr_chars in E.
  assert (D : ~ In "."%char digits) by by apply not_digit. assert (M : ~ In "-"%char digits) by by apply not_digit.
  assert (H : (j <? 0) = (k <? 0) /\ chars (pretty (Z.to_N (Z.abs j / 4))) ++ "."%char :: chars (frac (Z.abs j)) = chars (pretty (Z.to_N (Z.abs k / 4))) ++ "."%char :: chars (frac (Z.abs k))).
  { destruct (pretty_head (Z.to_N (Z.abs j / 4))) as (c & l & E1 & C1). destruct (pretty_head (Z.to_N (Z.abs k / 4))) as (c' & l' & E2 & C2). rewrite E1, E2 in *.
    destruct (j <? 0), (k <? 0); cbn [app] in E.
    - split; [done|]. by apply (f_equal tail) in E.
    - injection E as E0 _. exfalso. apply M. by rewrite E0.
    - injection E as E0 _. exfalso. apply M. by rewrite <- E0.
    - done. }
  destruct H as [Hs H]. apply cut_unique in H as [H1 H2]; [|by apply pretty_no..]. apply chars_inj in H1, H2. apply frac_inj in H2. apply (inj pretty) in H1.
  pose proof (Z.div_mod (Z.abs j) 4). pose proof (Z.div_mod (Z.abs k) 4). pose proof (Z.div_pos (Z.abs j) 4). pose proof (Z.div_pos (Z.abs k) 4). lia.
Qed.
Lemma repr_quarters_ok : good_repr repr_quarters.
Proof.
  split; [exact repr_quarters_inj|]. split.
  - intros k. rewrite repr_chars, !in_app_iff. assert (D : ~ In "_"%char digits) by by apply not_digit.
    intros [H|[H|[H|H]]]; [destruct (k <? 0); cbn in H; [destruct H as [H|[]]; done|done]|by apply (pretty_no _ _ D) in H|done|].
    apply D. exact (proj1 (List.Forall_forall _ _) (frac_chars (Z.abs k)) _ H).
  - intros k. destruct (pretty_head (Z.to_N (Z.abs k / 4))) as (c & l & E & C). rewrite repr_chars, E. destruct (k <? 0); cbn [app].
    + by exists "-"%char; eexists; split; [done|]; cbn; auto.
    + exists c. eexists. split; [done|]. cbn. cbn in C. tauto.
Qed.

(** ** Names *)
Section names.
  Context (repr : Z -> string) (Hr : good_repr repr).
  Lemma repr_inj x y : repr x = repr y -> x = y.
  Proof using Hr. destruct Hr as (H & _). apply H. Qed.
  Lemma repr_us x : ~ In us (chars (repr x)).
  Proof using Hr. destruct Hr as (_ & H & _). apply H. Qed.
  Lemma repr_first x : exists c l, chars (repr x) = c :: l /\ In c (list_ascii_of_string "-0123456789").
  Proof using Hr. destruct Hr as (_ & _ & H). apply H. Qed.

  Lemma tile_chars x y : chars (tile_text repr x y) = chars (repr x) ++ us :: chars (repr y).
  Proof. unfold tile_text. by rewrite !chars_app. Qed.
  Lemma tile_text_inj x y x' y' : tile_text repr x y = tile_text repr x' y' -> x = x' /\ y = y'.
  Proof using Hr.
    intros E. apply (f_equal list_ascii_of_string) in E. rewrite !tile_chars in E. apply cut_unique in E as [E1 E2]; [|apply repr_us..].
    apply chars_inj in E1, E2. split; by apply repr_inj.
  Qed.
  Lemma cells_chars r l : chars (text repr (FCells r l)) = chars "cells" ++ us :: chars (repr r) ++ us :: chars l.
  Proof. cbn [text]. rewrite !chars_app. done. Qed.
  Lemma edges_x_chars r : chars (text repr (FEdgesX r)) = chars "cell" ++ us :: chars "edges" ++ us :: chars "x" ++ us :: chars (repr r).
  Proof. cbn [text]. rewrite !chars_app. done. Qed.
  Lemma edges_y_chars r : chars (text repr (FEdgesY r)) = chars "cell" ++ us :: chars "edges" ++ us :: chars "y" ++ us :: chars (repr r).
  Proof. cbn [text]. rewrite !chars_app. done. Qed.
  Lemma indices_chars r : chars (text repr (FIndices r)) = chars "cell" ++ us :: chars (repr r) ++ us :: chars "indices".
  Proof. cbn [text]. rewrite !chars_app. done. Qed.
  Lemma text_folder x y : chars (text repr (FFolder (NTile x y))) = chars (repr x) ++ us :: chars (repr y).
  Proof. apply tile_chars. Qed.

  (** No number begins with a letter. *)
  Lemma tile_first x y a : chars (text repr (FFolder (NTile x y))) = a -> exists c l, a = c :: l /\ In c (list_ascii_of_string "-0123456789").
  Proof using Hr. intros <-. rewrite text_folder. destruct (repr_first x) as (c & l & -> & H). by eexists _, _. Qed.
  Lemma digit_e c : In c (list_ascii_of_string "-0123456789") -> c <> "e"%char /\ c <> "m"%char /\ c <> "t"%char /\ c <> "d"%char /\ c <> "c"%char /\ c <> "i"%char.
  Proof. cbn. intuition (subst; discriminate). Qed.

  Lemma grid_text_inj n m : grid_entry n -> grid_entry m -> text repr n = text repr m -> n = m.
  Proof using Hr.
    intros Hn Hm E. apply (f_equal list_ascii_of_string) in E.
    assert (T : forall x y k, grid_entry k -> (forall x' y', k <> FFolder (NTile x' y')) -> chars (text repr (FFolder (NTile x y))) <> chars (text repr k)).
    { intros x y k Hk Hk' Ek. apply tile_first in Ek as (c & l & Ek & Hc). apply digit_e in Hc as (C1 & C2 & C3 & C4 & C5 & C6).
      destruct k as [[|]| |key| | | | |]; try done; [by eapply Hk'|cbn in Ek; congruence|].
      cbn in Hk. apply elem_of_list_In in Hk. cbn in Hk. destruct Hk as [<-|[<-|[<-|[<-|[<-|[]]]]]]; cbn in Ek; congruence. }
    destruct n as [[|x y]| |key| | | | |]; try done.
    - destruct m as [[|x' y']| |key'| | | | |]; try done; [|by eapply T in E|by eapply T in E]. apply chars_inj, tile_text_inj in E as [-> ->]. done.
    - destruct m as [[|x' y']| |key'| | | | |]; try done; [by symmetry in E; eapply T in E|].
      cbn in Hm. apply elem_of_list_In in Hm. cbn in Hm. destruct Hm as [<-|[<-|[<-|[<-|[<-|[]]]]]]; done.
    - destruct m as [[|x' y']| |key'| | | | |]; try done; [by symmetry in E; eapply T in E| |].
      + cbn in Hn. apply elem_of_list_In in Hn. cbn in Hn. destruct Hn as [<-|[<-|[<-|[<-|[<-|[]]]]]]; done.
      + cbn in E. apply chars_inj in E as ->. done.
  Qed.

  Ltac cut := match goal with
    | H : ?a ++ us :: _ = ?b ++ us :: _ |- _ => apply cut_unique in H as [? H]; [|first [apply repr_us|cbn; intuition discriminate]..]
    end.
  Lemma repr_letter r s : chars (repr r) = chars s -> match chars s with c :: _ => In c (list_ascii_of_string "-0123456789") | [] => False end.
  Proof using Hr. intros <-. destruct (repr_first r) as (c & l & -> & H). done. Qed.
  Lemma tile_entry_inj n m : tile_entry n -> tile_entry m -> text repr n = text repr m -> n = m.
  Proof using Hr.
    intros Hn Hm E. apply (f_equal list_ascii_of_string) in E.
    destruct n as [| | | |r l|r|r|r]; try done; destruct m as [| | | |r' l'|r'|r'|r']; try done; cbn [tile_entry] in *;
      rewrite ?cells_chars, ?edges_x_chars, ?edges_y_chars, ?indices_chars in E; try done.
    - cut. cut. apply chars_inj in H0, E. apply repr_inj in H0. by subst.
    - do 3 cut. apply chars_inj, repr_inj in E as ->. done.
    - do 2 cut. apply repr_letter with (s := "edges") in H0 || (symmetry in H0; apply repr_letter with (s := "edges") in H0). cbn in H0. intuition discriminate.
    - do 3 cut. apply chars_inj, repr_inj in E as ->. done.
    - do 2 cut. apply repr_letter with (s := "edges") in H0 || (symmetry in H0; apply repr_letter with (s := "edges") in H0). cbn in H0. intuition discriminate.
    - do 2 cut. apply repr_letter with (s := "edges") in H0 || (symmetry in H0; apply repr_letter with (s := "edges") in H0). cbn in H0. intuition discriminate.
    - do 2 cut. apply repr_letter with (s := "edges") in H0 || (symmetry in H0; apply repr_letter with (s := "edges") in H0). cbn in H0. intuition discriminate.
    - do 2 cut. apply chars_inj, repr_inj in H0 as ->. done.
  Qed.

  Lemma starts_cell_entry n : tile_entry n -> starts_cell (text repr n) = is_cell_entry n.
  Proof using.
    intros Hn. unfold starts_cell. destruct n as [| | | |r l|r|r|r]; try done; rewrite ?cells_chars, ?edges_x_chars, ?edges_y_chars, ?indices_chars; done.
  Qed.
  Lemma resolution_text fo n : (forall r, fo (repr r) = Some r) -> tile_entry n ->
    resolution_in fo (text repr n) = match n with FCells r _ => Some r | _ => None end.
  Proof using Hr.
    intros Hf Hn. unfold resolution_in, py_split. destruct n as [| | | |r l|r|r|r]; try done;
      rewrite ?cells_chars, ?edges_x_chars, ?edges_y_chars, ?indices_chars; (rewrite split_char_step by (cbn; intuition discriminate)); cbn [app].
    - rewrite split_char_step by apply repr_us. cbn [map app]. rewrite !string_of_list_ascii_of_string. rewrite decide_True by done. apply Hf.
    - rewrite split_char_step by apply repr_us. done.
  Qed.
End names.
