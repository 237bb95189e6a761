(** The metadata document of a BAG and the Caris file beside it: /repo/bathygrid/bgrid.py lines 1986-2094. *)
From Coq Require Import Ascii.
From Verif Require Import Py.

(** An element of xml.etree.ElementTree: tag with the namespace in braces, attributes, text, children. The text after an
    element (tail) is not modelled: the code neither reads nor sets it. *)
Inductive xml := Elem (tag : string) (attrs : dict string string) (text : option string) (kids : list xml).
Definition x_tag (t : xml) : string := match t with Elem g _ _ _ => g end.
Definition x_attrs (t : xml) : dict string string := match t with Elem _ a _ _ => a end.
Definition x_text (t : xml) : option string := match t with Elem _ _ s _ => s end.
Definition x_kids (t : xml) : list xml := match t with Elem _ _ _ k => k end.
Definition with_kids (t : xml) (k : list xml) : xml := Elem (x_tag t) (x_attrs t) (x_text t) k.
Definition with_text (s : string) (t : xml) : xml := Elem (x_tag t) (x_attrs t) (Some s) (x_kids t).

(** Elements are Python objects that the code changes in place; here they are named by their position: the numbers of the
    children on the way from the root. *)
Fixpoint x_at (p : list nat) (t : xml) : option xml :=
  match p with [] => Some t | i :: r => k ← x_kids t !! i; x_at r k end.
Fixpoint x_alter (f : xml -> xml) (p : list nat) (t : xml) : xml :=
  match p with [] => f t | i :: r => with_kids t (alter (x_alter f r) i (x_kids t)) end.

(** Element.findall(tag1/tag2/...): the matching elements in document order. *)
Fixpoint find_all (path : list string) (t : xml) : list (list nat) :=
  match path with
  | [] => [[]]
  | g :: rest => concat (imap (fun i k => if bool_decide (x_tag k = g) then map (cons i) (find_all rest k) else []) (x_kids t))
  end.

(** bgrid.py lines 2025-2028. *)
Definition gmd : string := "{http://www.isotc211.org/2005/gmd}".
Definition gml : string := "{http://www.opengis.net/gml/3.2}".
Definition bagschema : string := "{http://www.opennavsurf.org/schema/bag}".
Definition xsi : string := "{http://www.w3.org/2001/XMLSchema-instance}".
(** bgrid.py lines 2036-2037. *)
Definition temporal_hierarchy : list string :=
  [gmd +:+ "identificationInfo"; bagschema +:+ "BAG_DataIdentification"; gmd +:+ "extent"; gmd +:+ "EX_Extent";
   gmd +:+ "temporalElement"; gmd +:+ "EX_TemporalExtent"; gmd +:+ "extent"; gml +:+ "TimePeriod"].
Definition begin_tag : string := gml +:+ "beginPosition".
Definition end_tag : string := gml +:+ "endPosition".

(** et.SubElement and the attributes of bgrid.py lines 2047-2050. The test ['TimePeriod' in elem] is true for the last tag of the
    hierarchy only. *)
Definition new_elem (g : string) : xml :=
  Elem g (if bool_decide (g = gml +:+ "TimePeriod") then [(gml +:+ "id", "temporal-extent-1"); (xsi +:+ "type", "gml:TimePeriodType")] else [])
    None [].
Definition add_kid (t k : xml) : xml := with_kids t (x_kids t ++ [k]).

(** bgrid.py lines 2043-2052: from the root down, the first child with each tag, made if there is none. Returns the document and the
    position of the last element. *)
Fixpoint ensure (path : list string) (t : xml) : xml * list nat :=
  match path with
  | [] => (t, [])
  | g :: rest =>
      match list_find (fun k => x_tag k = g) (x_kids t) with
      | Some (i, k) => let '(k', p) := ensure rest k in (with_kids t (<[i := k']> (x_kids t)), i :: p)
      | None => let '(k', p) := ensure rest (new_elem g) in (add_kid t k', length (x_kids t) :: p)
      end
  end.
(** bgrid.py lines 2053-2056: the first of the elements found before, or a new child of the element at [par]. *)
Definition found_or_new (found : list (list nat)) (g : string) (par : list nat) (t : xml) : xml * list nat :=
  match found with
  | p :: _ => (t, p)
  | [] => (x_alter (fun n => add_kid n (new_elem g)) par t, par ++ [match x_at par t with Some n => length (x_kids n) | None => 0 end])
  end.
(** bgrid.py lines 2038-2058, on the document read from the file. The times are the texts min_time and max_time of the grid (line 2380);
    the conversions of numbers and datetimes in lines 2017-2024 are not needed for these. *)
Definition set_temporal (start_time end_time : string) (t : xml) : xml :=
  let begins := find_all (temporal_hierarchy ++ [begin_tag]) t in
  let ends := find_all (temporal_hierarchy ++ [end_tag]) t in
  let '(t1, par) := match begins, ends with _ :: _, _ :: _ => (t, []) | _, _ => ensure temporal_hierarchy t end in
  let '(t2, b) := found_or_new begins begin_tag par t1 in
  let '(t3, e) := found_or_new ends end_tag par t2 in
  x_alter (with_text end_time) e (x_alter (with_text start_time) b t3).

(** ** The Caris file *)
(** xml.etree.ElementTree._escape_cdata. Characters above 127 are not modelled. *)
Fixpoint escape_et (l : list ascii) : list ascii :=
  match l with
  | [] => []
  | c :: r => (if Ascii.eqb c "&"%char then list_ascii_of_string "&amp;"
               else if Ascii.eqb c "<"%char then list_ascii_of_string "&lt;"
               else if Ascii.eqb c ">"%char then list_ascii_of_string "&gt;" else [c]) ++ escape_et r
  end.
(** xml.dom.minidom._write_data, which writes the quotation mark as well. *)
Fixpoint escape_dom (l : list ascii) : list ascii :=
  match l with
  | [] => []
  | c :: r => (if Ascii.eqb c "&"%char then list_ascii_of_string "&amp;"
               else if Ascii.eqb c "<"%char then list_ascii_of_string "&lt;"
               else if Ascii.eqb c """"%char then list_ascii_of_string "&quot;"
               else if Ascii.eqb c ">"%char then list_ascii_of_string "&gt;" else [c]) ++ escape_dom r
  end.
(** The characters that the parser accepts: tabulator, line feed, carriage return and the printable ones. *)
Definition legal (c : ascii) : bool :=
  let n := nat_of_ascii c in (n =? 9) || (n =? 10) || (n =? 13) || ((32 <=? n) && (n <? 128)).
(** Reading the text of an element: entities are replaced, line ends become line feeds; None for the beginning of a tag, an unknown entity or an
    illegal character. *)
Fixpoint read_text (l : list ascii) : option (list ascii) :=
  match l with
  | [] => Some []
  | c :: r =>
      if Ascii.eqb c "&"%char then
        match r with
        | ("a"%char :: "m"%char :: "p"%char :: ";"%char :: r') => cons "&"%char <$> read_text r'
        | ("l"%char :: "t"%char :: ";"%char :: r') => cons "<"%char <$> read_text r'
        | ("g"%char :: "t"%char :: ";"%char :: r') => cons ">"%char <$> read_text r'
        | ("q"%char :: "u"%char :: "o"%char :: "t"%char :: ";"%char :: r') => cons """"%char <$> read_text r'
        | _ => None
        end
      else if Ascii.eqb c "<"%char then None
      else if Ascii.eqb c "013"%char then
        match r with
        | "010"%char :: r' => cons "010"%char <$> read_text r'
        | _ => cons "010"%char <$> read_text r
        end
      else if legal c then cons c <$> read_text r else None
  end.
(** bgrid.py line 2090, str.replace: the entity quot becomes a quotation mark. *)
Fixpoint unquote (l : list ascii) : list ascii :=
  match l with
  | ("&"%char :: "q"%char :: "u"%char :: "o"%char :: "t"%char :: ";"%char :: r) => """"%char :: unquote r
  | c :: r => c :: unquote r
  | [] => []
  end.
(** bgrid.py lines 2081-2092: the text of the element wkt in the file; None if the document cannot be parsed, when no file is written. The
    other tags and attributes of the document are constant and without '&'. *)
Definition rxl_text (wkt : string) : option (list ascii) :=
  d ← read_text (escape_et (list_ascii_of_string wkt)); Some (unquote (escape_dom d)).
