(** Property C126: the vertical reference read from a BAG. *)
From Verif Require Import Py BagXml BagWkt XmlSpec PyFacts BagXmlFacts BagWktFacts.

(** The tags of the elements down to a reference. *)
Definition reference_path : list string :=
  ["{http://www.isotc211.org/2005/gmd}referenceSystemInfo"; "{http://www.isotc211.org/2005/gmd}MD_ReferenceSystem"; "{http://www.isotc211.org/2005/gmd}referenceSystemIdentifier";
   "{http://www.isotc211.org/2005/gmd}RS_Identifier"; "{http://www.isotc211.org/2005/gmd}code"; "{http://www.isotc211.org/2005/gco}CharacterString"].
(** The answer for a file is the text of an element with the tags of a reference; there are exactly two of these, it is vertical and the one
    before it, if any, is not. *)
Theorem C126_answer v t w : bag_vertical_wkt v (Some t) = Ok w ->
  exists p q np nq, before p q /\ (forall r, tags_to r t = Some reference_path <-> r = p \/ r = q) /\ x_at p t = Some np /\ x_at q t = Some nq /\ v w = Ok true /\
    (w = x_text np \/ (w = x_text nq /\ v (x_text np) = Ok false)).
Proof.
  change reference_path with crs_hierarchy.
  unfold bag_vertical_wkt. pose proof (elem_of_find crs_hierarchy t) as E. pose proof (find_sorted crs_hierarchy t) as S. destruct (find_all crs_hierarchy t) as [|p [|q [|x l]]]; cbn; try done.
  assert (Hp : exists np, x_at p t = Some np) by (eapply tags_at, E; left). assert (Hq : exists nq, x_at q t = Some nq) by (eapply tags_at, E; right; left).
  destruct Hp as [np Hp], Hq as [nq Hq]. rewrite Hp, Hq. cbn. intros H. exists p, q, np, nq.
  split; [inversion S as [|? ? _ F]; subst; by inversion F|]. split; [intros r; rewrite <- E, !elem_of_cons; split; [intros [?|[?|?%not_elem_of_nil]]; tauto|tauto]|]. split; [done|]. split; [done|].
  apply rbind_Ok in H as (b & Hb & H). destruct b; [injection H as <-; by split; [|left]|]. apply rbind_Ok in H as (b & Hb' & H). destruct b; [|done]. injection H as <-. split; [done|]. by right.
Qed.
(** If the document has two references of which one is vertical, its text is the answer, whichever comes first. *)
Theorem C126_either v t p q np nq : p <> q -> (forall r, tags_to r t = Some reference_path <-> r = p \/ r = q) -> x_at p t = Some np -> x_at q t = Some nq ->
  v (x_text np) = Ok true -> v (x_text nq) = Ok false -> bag_vertical_wkt v (Some t) = Ok (x_text np).
Proof.
  change reference_path with crs_hierarchy.
  intros Hne H Hp Hq V1 V2. unfold bag_vertical_wkt. pose proof (find_sorted crs_hierarchy t) as S.
  assert (E : forall r, r ∈ find_all crs_hierarchy t <-> r = p \/ r = q) by (intros r; by rewrite elem_of_find).
  assert (HL : find_all crs_hierarchy t = [p; q] \/ find_all crs_hierarchy t = [q; p]).
  { pose proof (find_pair _ p q S Hne E). done. }
  destruct HL as [-> | ->]; cbn; rewrite Hp, Hq; cbn; rewrite ?V1, ?V2; cbn; rewrite ?V1; done.
Qed.
(** Without exactly two references, and without a vertical one, it is refused. *)
Theorem C126_refused v t ps : NoDup ps -> (forall r, tags_to r t = Some reference_path <-> r ∈ ps) ->
  length ps <> 2 \/ (forall r n, r ∈ ps -> x_at r t = Some n -> v (x_text n) = Ok false) -> bag_vertical_wkt v (Some t) = Raise ValueError.
Proof.
  change reference_path with crs_hierarchy.
  intros Hnd H HC. unfold bag_vertical_wkt. assert (HP : find_all crs_hierarchy t ≡ₚ ps).
  { apply NoDup_Permutation; [apply find_nodup|done|]. intros r. by rewrite elem_of_find. }
  case_bool_decide as HL; cbn [negb]; [|done]. destruct HC as [HC|HC]; [rewrite HP in HL; done|].
  apply none_vertical. apply Forall_forall. intros s (r & -> & Hr)%elem_of_list_fmap. rewrite HP in Hr. destruct (tags_at _ _ _ (proj2 (H r) Hr)) as [n Hn]. rewrite Hn. cbn. by apply (HC r n).
Qed.
(** Setting the times of the BAG does not change the answer. *)
Theorem C126_times v s e t : bag_vertical_wkt v (Some (set_temporal s e t)) = bag_vertical_wkt v (Some t).
Proof.
  destruct (temporal_other s e t crs_hierarchy) as [HF HT]; [apply (bool_decide_unpack _); vm_compute; exact I..|]. unfold bag_vertical_wkt. rewrite HF. destruct (negb _); [done|]. f_equal.
  apply map_ext_in. intros p Hp. by apply HT, elem_of_list_In.
Qed.
(** A document with a horizontal and a vertical reference, before and after the times are set; one with a single reference. *)
Definition ref (s : string) : xml :=
  Elem (gmd +:+ "referenceSystemInfo") [] None [Elem (gmd +:+ "MD_ReferenceSystem") [] None [Elem (gmd +:+ "referenceSystemIdentifier") [] None
    [Elem (gmd +:+ "RS_Identifier") [] None [Elem (gmd +:+ "code") [] None [Elem (gco +:+ "CharacterString") [] (Some s) []]]]]].
Definition ref_vertical (s : option string) : res bool := Ok (bool_decide (s = Some "VERT_CS")).
Example C126_case :
  bag_vertical_wkt ref_vertical (Some (Elem "root" [] None [ref "PROJCS"; ref "VERT_CS"])) = Ok (Some "VERT_CS") /\
  bag_vertical_wkt ref_vertical (Some (set_temporal "2018" "2019" (Elem "root" [] None [ref "VERT_CS"; ref "PROJCS"]))) = Ok (Some "VERT_CS") /\
  bag_vertical_wkt ref_vertical (Some (Elem "root" [] None [ref "VERT_CS"])) = Raise ValueError /\
  bag_vertical_wkt ref_vertical (Some (Elem "root" [] None [ref "PROJCS"; ref "GEOGCS"])) = Raise ValueError.
Proof. vm_compute. repeat split. Qed.
Print Assumptions C126_answer.
Print Assumptions C126_either.
Print Assumptions C126_refused.
Print Assumptions C126_times.
