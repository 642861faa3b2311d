(** C38: connector geometry keeps both end points. *)
From Coq Require Import String List Bool NArith.
From Verif Require Import Str XmlSpec XmlProofs XmlWriterProofs OpcSpec XmlPath ConnectorModel ConnectorSpec ConnectorProofs.
Import ListNotations.
Open Scope string_scope.

(** The generated element is well-formed XML; its position, extent and flips
    give back both end points; the glued shapes, the label and the look of the
    line (kind, width, colour, dashes, arrow heads) are the given ones.  The line colour is written as it is, so it has to be free of markup. *)
Theorem C38_end_points_recovered (c : connector) (id : N) :
  sforall plain_val (line_color c) = true -> label_ok (label c) = true ->
  exists x b, xml_read (generate_connector_xml c id) = Some x /\ shows x b /\
    start_of b = (start_x c, start_y c) /\ end_of b = (end_x c, end_y c) /\
    glued x "a:stCxn" (both (start_shape c) (option_map site_index (start_site c))) /\
    glued x "a:endCxn" (both (end_shape c) (option_map site_index (end_site c))) /\
    map text_in (at_path ["p:txBody"; "a:p"; "a:r"; "a:t"] x) = match label c with Some l => [l] | None => [] end /\
    line_look x = want_line c.
Proof. exact (connector_reads c id). Qed.
Print Assumptions C38_end_points_recovered.
Example C38_case :
  let c := Connector Elbow 900 20 100 4294967295 "FF0000" 12700 Dash NoArrow Triangle Large (Some 4%N) (Some Right_) None (Some Top) (Some "a < b") in
  sforall plain_val (line_color c) = true /\ label_ok (label c) = true /\ flip_h c = true /\ flip_v c = false.
Proof. repeat split; reflexivity. Qed.

(** Glue: a connector attached to the left side of a rectangle is attached to
    the right side instead, and the other way round. *)
Theorem C38_sites_refuted : exists c x, xml_read (generate_connector_xml c 5) = Some x
  /\ start_shape c = Some 4%N /\ start_site c = Some Left_ /\ glued x "a:stCxn" (both (Some 4%N) (rect_site Right_))
  /\ end_shape c = Some 7%N /\ end_site c = Some Right_ /\ glued x "a:endCxn" (both (Some 7%N) (rect_site Left_)).
Proof.
  exists (Connector Straight 0 0 1 1 "000000" 1 Solid NoArrow NoArrow Medium (Some 4%N) (Some Left_) (Some 7%N) (Some Right_) None).
  eexists. split; [vm_compute; reflexivity|]. repeat split; vm_compute; reflexivity.
Qed.
Print Assumptions C38_sites_refuted.

(** Without the condition on the colour the claim fails: the colour reaches the
    attribute unescaped. *)
Theorem C38_unescaped_color_refuted :
  exists col, xml_read (generate_connector_xml (Connector Straight 0 0 1 1 col 1 Solid NoArrow NoArrow Medium None None None None None) 5) = None.
Proof. exists "A&B". vm_compute. reflexivity. Qed.
Print Assumptions C38_unescaped_color_refuted.
