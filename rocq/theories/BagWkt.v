(** The vertical reference of a BAG: /repo/bathygrid/utilities.py lines 447-467. *)
From Verif Require Import Py BagXml.

(** utilities.py lines 453-458. *)
Definition gco : string := "{http://www.isotc211.org/2005/gco}".
Definition crs_hierarchy : list string :=
  [gmd +:+ "referenceSystemInfo"; gmd +:+ "MD_ReferenceSystem"; gmd +:+ "referenceSystemIdentifier"; gmd +:+ "RS_Identifier";
   gmd +:+ "code"; gco +:+ "CharacterString"].
(** utilities.py lines 464-467: the text of the first element whose reference is vertical. [vertical] stands for CRS.from_wkt(text).is_vertical
    of pyproj, which may raise; an element without text has None. *)
Fixpoint first_vertical (vertical : option string -> res bool) (l : list (option string)) : res (option string) :=
  match l with
  | [] => Raise ValueError
  | s :: r => let* v := vertical s in if v then Ok s else first_vertical vertical r
  end.
(** utilities.py lines 448-467 for the document in the file; [None] if there is no file (the function then returns None). Reading the
    document from the file and parsing it are not modelled. The file stays open, which the model does not show. *)
Definition bag_vertical_wkt (vertical : option string -> res bool) (doc : option xml) : res (option string) :=
  match doc with
  | None => Ok None
  | Some t => let found := find_all crs_hierarchy t in
              if negb (bool_decide (length found = 2)) then Raise ValueError else
              first_vertical vertical (map (fun p => n ← x_at p t; x_text n) found)
  end.
