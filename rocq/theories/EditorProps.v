(** C07, C08, C09, C10: editing an existing deck. *)
From Coq Require Import String Ascii List Bool Arith.
From stdpp Require Import base gmap strings.
From Verif Require Import Str GenModel OpcSpec PackageModel EditorModel EditorSpec EditorProofs EditorSessionProofs.
Import ListNotations.
Open Scope string_scope.
Open Scope nat_scope.
Open Scope string_scope.

(** Every session on a numbered deck returns the results and shows the slides
    of the same session on a plain list, and the deck stays numbered. *)
Theorem C07_editor_is_list (content : Type) (slide_xml : nat -> content -> string) (lossy : string -> string)
    (os : list (edit content)) (e : editor) :
  numbered e ->
  let r := session content slide_xml lossy os e in
  let s := list_session content slide_xml create_slide_rels_xml os (slides_of e) in
  fst r = fst s /\ slides_of (snd r) = snd s /\ slide_count (snd r) = length (snd s) /\ numbered (snd r).
Proof. exact (session_list slide_xml lossy os e). Qed.
Print Assumptions C07_editor_is_list.

(** An opened package whose slide parts are exactly 1..n is such a deck. *)
Theorem C07_open_numbered (p : package) (keys : list string) (n : nat) :
  keys_order p keys ->
  (forall i, 1 <= i <= n -> get_part p ("ppt/slides/slide" ++ decn i ++ ".xml") <> None) ->
  (forall k, get_part p k <> None -> starts_with "ppt/slides/slide" k = true -> ends_with ".xml" k = true ->
     exists i, 1 <= i <= n /\ k = "ppt/slides/slide" ++ decn i ++ ".xml") ->
  (forall i, n < i -> get_part p ("ppt/slides/_rels/slide" ++ decn i ++ ".xml.rels") = None) ->
  get_part p "ppt/slides/_temp_slide.xml" = None -> get_part p "ppt/slides/_rels/_temp_slide.xml.rels" = None ->
  numbered (open_editor p keys) /\ slide_count (open_editor p keys) = n.
Proof. exact (open_numbered p keys n). Qed.
Print Assumptions C07_open_numbered.

Example C07_case : numbered (deck 3 true false) /\ length (slides_of (deck 3 true false)) = 3.
Proof. exact (conj deck_numbered eq_refl). Qed.
Example C07_case_session :
  map fst (slides_of (snd (session string (fun n c => c) (fun s => s)
     [ReorderSlide _ 2 0; InsertSlide _ 1 "new"; DuplicateSlide _ 0; RemoveSlide _ 2; AddSlide _ "last"; UpdateSlide _ 9 "no"] (deck 3 true false))))
  = ["slide 3"; "slide 3"; "slide 1"; "slide 2"; "last"].
Proof. vm_compute. reflexivity. Qed.

Theorem C08_failure_changes_nothing (content : Type) (slide_xml : nat -> content -> string) (lossy : string -> string)
    (o : edit content) (e e' : editor) :
  apply content slide_xml lossy o e = (NotFound, e') -> e' = e.
Proof. exact (failure_unchanged slide_xml lossy o e e'). Qed.
Print Assumptions C08_failure_changes_nothing.

Theorem C08_fails_iff_out_of_range (content : Type) (slide_xml : nat -> content -> string) (lossy : string -> string)
    (o : edit content) (e : editor) :
  numbered e -> (fst (apply content slide_xml lossy o e) = NotFound <-> out_of_range o (slide_count e)).
Proof. exact (failure_iff slide_xml lossy o e). Qed.
Print Assumptions C08_fails_iff_out_of_range.

Example C08_case : apply string (fun n c => c) (fun s => s) (InsertSlide _ 4 "x") (deck 3 true false) = (NotFound, deck 3 true false).
Proof. reflexivity. Qed.

(** Parts other than those named by [editor_name] keep their bytes, in any
    session from any state. *)
Theorem C09_other_parts_untouched (content : Type) (slide_xml : nat -> content -> string) (lossy : string -> string)
    (os : list (edit content)) (e : editor) (name : string) :
  ~ editor_name name ->
  get_part (pkg (snd (session content slide_xml lossy os e))) name = get_part (pkg e) name.
Proof. exact (session_frame slide_xml lossy os e name). Qed.
Print Assumptions C09_other_parts_untouched.

Example C09_case : ~ editor_name "ppt/media/image1.png" /\ get_part (pkg (deck 3 true false)) "ppt/media/image1.png" = Some "png".
Proof.
  split; [|vm_compute; reflexivity].
  intros [[n H]|[[n H]|H]]; [discriminate|discriminate|]. repeat (destruct H as [H|H]; [discriminate|]). discriminate.
Qed.

(** After a successful structural edit from any state, the three index parts
    agree with the slides 1..count. *)
Theorem C10_indexes_consistent (content : Type) (slide_xml : nat -> content -> string) (lossy : string -> string)
    (o : edit content) (e : editor) (i : nat) (e' : editor) :
  structural o -> apply content slide_xml lossy o e = (Ok i, e') -> indexes_consistent e'.
Proof. exact (structural_consistent slide_xml lossy o e i e'). Qed.
Print Assumptions C10_indexes_consistent.

Example C10_case : exists i e', structural (RemoveSlide string 1) /\
  apply string (fun n c => c) (fun s => s) (RemoveSlide _ 1) (deck 3 true false) = (Ok i, e') /\ slide_count e' = 2.
Proof. do 2 eexists. split; [exact I|]. split; [reflexivity|]. reflexivity. Qed.

(** The same is false of add_slide: on a consistent deck it reuses a
    relationship id that is taken. *)
Theorem C10_add_slide_refuted :
  exists e e' rels l, numbered e /\ indexes_consistent e /\
    apply string (fun n c => c) (fun s => s) (AddSlide _ "x") e = (Ok 3, e') /\
    get_part (pkg e') "ppt/_rels/presentation.xml.rels" = Some rels /\ rels_of rels = Some l /\ ~ List.NoDup (map rel_id l).
Proof. exact add_slide_duplicate_id. Qed.
Print Assumptions C10_add_slide_refuted.

(** And the notes-master reference is not covered: after removing a slide from
    a generated deck with notes it resolves to the view properties. *)
Theorem C10_notes_master_refuted :
  exists e e' pres rels l id r, numbered e /\
    apply string (fun n c => c) (fun s => s) (RemoveSlide _ 0) e = (Ok 0, e') /\
    get_part (pkg e') "ppt/presentation.xml" = Some pres /\
    id_list pres "p:notesMasterIdLst" "p:notesMasterId" = Some [(id, r)] /\
    get_part (pkg e') "ppt/_rels/presentation.xml.rels" = Some rels /\ rels_of rels = Some l /\
    option_map rel_type (lookup_rel r l) = Some (doc_rel "viewProps").
Proof. exact notes_master_misresolved. Qed.
Print Assumptions C10_notes_master_refuted.
