(** C109, C110: the times in the metadata of an exported BAG. C111: the Caris file beside it. *)
From Coq Require Import Ascii.
From Verif Require Import Py BagXml XmlSpec BagXmlFacts.

(** ** Samples *)
Definition el (g : string) (k : list xml) : xml := Elem g [] None k.
Definition txt (g s : string) : xml := Elem g [] (Some s) [].
(** The metadata that GDAL writes: no temporal element. *)
Definition gdal_doc : xml :=
  el "{http://www.isotc211.org/2005/gmi}MI_Metadata"
    [txt (gmd +:+ "fileIdentifier") "x";
     el (gmd +:+ "identificationInfo")
       [el (bagschema +:+ "BAG_DataIdentification")
          [txt (gmd +:+ "abstract") "y"; el (gmd +:+ "extent") [el (gmd +:+ "EX_Extent") [el (gmd +:+ "geographicElement") []]]]]].
(** Nested elements with these tags around the given ones. *)
Definition nest (tags : list string) (k : list xml) : list xml := foldr (fun g k => [el g k]) k tags.
Definition period (k : list xml) : list xml := nest (drop 5 temporal_hierarchy) k.
(** A document with two temporal elements, the first without positions, the second with a begin only. *)
Definition two_doc : xml :=
  el "root" (nest (take 4 temporal_hierarchy)
    [el (gmd +:+ "temporalElement") (period []); el (gmd +:+ "temporalElement") (period [txt begin_tag "old"])]).

(** ** C109 *)
(** After an export the first begin (end) position of the document has the given time. *)
Theorem C109_written s e t :
  exists b f nb nf, first_with begin_path (set_temporal s e t) b /\ x_at b (set_temporal s e t) = Some nb /\ x_text nb = Some s /\
    first_with end_path (set_temporal s e t) f /\ x_at f (set_temporal s e t) = Some nf /\ x_text nf = Some e.
Proof. apply temporal_written. Qed.
(** Everything else stays as it was, where it was; the elements added lie on the way to these two, without text. *)
Theorem C109_rest s e t b f :
  first_with begin_path (set_temporal s e t) b -> first_with end_path (set_temporal s e t) f ->
  (forall q n, x_at q t = Some n -> exists n', x_at q (set_temporal s e t) = Some n' /\ x_tag n' = x_tag n /\ x_attrs n' = x_attrs n /\
     (q <> b -> q <> f -> x_text n' = x_text n)) /\
  (forall q n', x_at q t = None -> x_at q (set_temporal s e t) = Some n' ->
     (q `prefix_of` b \/ q `prefix_of` f) /\ (q <> b -> q <> f -> x_text n' = None)).
Proof. intros Hb Hf. destruct (temporal_rest s e t b f Hb Hf) as [H1 H2]. split; [done|]. intros q n' H0 Hn. by destruct (H2 q n' H0 Hn) as (? & ? & _). Qed.
(** An added time period has the id and the type that the schema asks for, every other added element has no attributes. *)
Theorem C109_attrs s e t q n : x_at q t = None -> x_at q (set_temporal s e t) = Some n ->
  (x_tag n = gml +:+ "TimePeriod" -> x_attrs n = [(gml +:+ "id", "temporal-extent-1"); (xsi +:+ "type", "gml:TimePeriodType")]) /\
  (x_tag n <> gml +:+ "TimePeriod" -> x_attrs n = []).
Proof.
  intros H0 Hn. destruct (temporal_written s e t) as (b & f & _ & _ & Hb & _ & _ & Hf & _).
  by destruct (proj2 (temporal_rest s e t b f Hb Hf) q n H0 Hn) as (_ & _ & HA).
Qed.
(** Setting the times again replaces them: nothing is added and no earlier time is left. *)
Theorem C109_again s e s' e' t : set_temporal s' e' (set_temporal s e t) = set_temporal s' e' t.
Proof. apply temporal_again. Qed.
Example C109_case :
  x_at [1; 0; 1; 0; 1; 0; 0; 0] (set_temporal "2018" "2019" gdal_doc)
    = Some (Elem (gml +:+ "TimePeriod") [(gml +:+ "id", "temporal-extent-1"); (xsi +:+ "type", "gml:TimePeriodType")] None
              [txt begin_tag "2018"; txt end_tag "2019"]) /\
  x_at [0] (set_temporal "2018" "2019" gdal_doc) = Some (txt (gmd +:+ "fileIdentifier") "x") /\
  find_all begin_path (set_temporal "2018" "2019" gdal_doc) = [[1; 0; 1; 0; 1; 0; 0; 0; 0]].
Proof. vm_compute. repeat split. Qed.

(** ** C110 *)
(** The full statement, that begin and end are always in one time period, is false: a begin is looked for in all time periods, but a missing
    end is put into the first one. *)
Theorem C110_together_refuted :
  exists s e t b f, first_with begin_path (set_temporal s e t) b /\ first_with end_path (set_temporal s e t) f /\
    ~ exists par i j, b = par ++ [i] /\ f = par ++ [j].
Proof.
  exists "a", "b", two_doc, [0; 0; 0; 0; 1; 0; 0; 0; 0], [0; 0; 0; 0; 0; 0; 0; 0; 0].
  pose proof (find_cases begin_path (set_temporal "a" "b" two_doc)) as B.
  pose proof (find_cases end_path (set_temporal "a" "b" two_doc)) as E.
  set (b := find_all begin_path _) in B. vm_compute in b. subst b. set (f := find_all end_path _) in E. vm_compute in f. subst f.
  split; [exact B|]. split; [exact E|]. intros (par & i & j & Hb & Hf).
  change ([0; 0; 0; 0; 1; 0; 0; 0; 0]) with ([0; 0; 0; 0; 1; 0; 0; 0] ++ [0]) in Hb. apply app_inj_2 in Hb as [<- _]; [|done].
  change ([0; 0; 0; 0; 0; 0; 0; 0; 0]) with ([0; 0; 0; 0; 0; 0; 0; 0] ++ [0]) in Hf. apply app_inj_2 in Hf as [Hf _]; [|done].
  discriminate Hf.
Qed.
(** It holds for documents in which no element on the way occurs twice, as in those that GDAL writes. *)
Theorem C110_together_partial s e t b f :
  single temporal_hierarchy t ->
  first_with begin_path (set_temporal s e t) b -> first_with end_path (set_temporal s e t) f ->
  exists par i j, b = par ++ [i] /\ f = par ++ [j].
Proof. apply temporal_together. Qed.
Example C110_case :
  single temporal_hierarchy gdal_doc /\
  find_all begin_path (set_temporal "a" "b" gdal_doc) = [[1; 0; 1; 0; 1; 0; 0; 0; 0]] /\
  find_all end_path (set_temporal "a" "b" gdal_doc) = [[1; 0; 1; 0; 1; 0; 0; 0; 1]].
Proof. split; [apply single_check; vm_compute; reflexivity|]. vm_compute. split; reflexivity. Qed.

(** ** C111 *)
(** The Caris file is written, and reading it gives the coordinate system again. *)
Theorem C111_read s : plain s -> exists w, rxl_text s = Some w /\ read_text w = Some (list_ascii_of_string s).
Proof. apply rxl_plain. Qed.
(** Quotation marks are in the file as such, not as entities. *)
Theorem C111_quotes s w : rxl_text s = Some w -> forall a b, w <> a ++ list_ascii_of_string "&quot;" ++ b.
Proof. apply rxl_quote. Qed.
Example C111_case :
  plain "PROJCS[""A & B"",X<1,&quot;]" /\
  string_of_list_ascii <$> rxl_text "PROJCS[""A & B"",X<1,&quot;]" = Some "PROJCS[""A &amp; B"",X&lt;1,&amp;quot;]".
Proof. split; [|reflexivity]. unfold plain. cbn. repeat (apply Forall_cons; split; [split; [reflexivity|discriminate]|]). apply Forall_nil. exact I. Qed.
(** A carriage return is lost: the parser makes it a line feed. *)
Example C111_return :
  rxl_text (String "a" (String "013" (String "b" ""))) = Some ["a"; "010"; "b"]%char.
Proof. reflexivity. Qed.

Print Assumptions C109_written.
Print Assumptions C109_rest.
Print Assumptions C109_again.
Print Assumptions C109_attrs.
Print Assumptions C110_together_refuted.
Print Assumptions C110_together_partial.
Print Assumptions C111_read.
Print Assumptions C111_quotes.
