(** Sections as sets of slide indexes, and how a section list reads. *)
From Coq Require Import String Ascii List NArith.
From Verif Require Import Str XmlSpec OpcSpec SectionModel.
Import ListNotations.
Open Scope string_scope.
Open Scope N_scope.

Definition member (i : N) (s : section) : Prop := first_slide s <= i < first_slide s + slide_count s.
(** The end of the section fits in a [usize]. *)
Definition fits (o : op) : Prop := match o with Add _ f c => f + c <= 18446744073709551615 | _ => True end.
Definition reachable (m : manager) : Prop := exists l, Forall fits l /\ m = run l.

(** The p14:section entries of a section list: name, id, slide ids. *)
Definition read_sections (s : string) : option (list (string * string * list string)) :=
  match xml_read s with
  | Some (Elem "p:extLst" _ kids) =>
      Some (map (fun x => (attr "name" x, attr "id" x,
                           map (attr "id") (named "p14:sldId" (flat_map children (named "p14:sldIdLst" (children x))))))
        (named "p14:section" (flat_map children (named "p14:sectionLst" (flat_map children (named "p:ext" kids))))))
  | _ => None
  end.
Definition guid_form (s : string) : Prop :=
  exists a b c d e, s = ("{" ++ a ++ "-" ++ b ++ "-" ++ c ++ "-" ++ d ++ "-" ++ e ++ "}")%string /\
    map String.length [a; b; c; d; e] = [8; 4; 4; 4; 12]%nat /\
    forall x, In x [a; b; c; d; e] ->
      sforall (fun ch => let n := N_of_ascii ch in ((48 <=? n) && (n <=? 57) || (65 <=? n) && (n <=? 70))%bool) x = true.
