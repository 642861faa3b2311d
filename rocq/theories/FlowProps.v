(** C62: a Mermaid flowchart is drawn as it reads. *)
From Coq Require Import String Ascii List Bool Arith NArith Permutation.
From Verif Require Import Str ShapeModel ConnectorModel FlowModel FlowSpec FlowThms FlowRefute.
Import ListNotations.
Open Scope nat_scope.
Open Scope string_scope.

Theorem C62_flowchart : forall (wordy : string -> bool) (order : list node -> list node), (forall l, Permutation (order l) l) ->
  forall (w : way) (doc : list item) (code : string), doc_ok wordy doc = true -> written w doc code -> mentions doc <> [] -> apart doc ->
  let d := flow_drawing wordy order code in
  exists place frames titles labels,
    drawn doc (d_shapes d) (d_connectors d) place frames titles labels
    /\ (small doc -> laid_out w doc (d_shapes d) (d_connectors d) place frames titles labels).
Proof. exact flow_shown. Qed.
Print Assumptions C62_flowchart.
Example C62_flowchart_example : doc_ok wordy0 doc0 = true /\ written LR doc0 code0 /\ mentions doc0 <> [] /\ apart doc0 /\ small doc0.
Proof. exact doc0_ok. Qed.
Example C62_flowchart_drawn : length (d_shapes (draw0 code0)) = 13 /\ length (d_connectors (draw0 code0)) = 4.
Proof. exact draw0_shapes. Qed.

(** Outside: what is lost or drawn otherwise than written. *)
Theorem C62_chain_refuted :
  texts (draw0 (doc ["flowchart LR"; "A[Start] --> B[Process] --> C[End]"])) = [Some "Start"; Some "Process"]
  /\ texts (draw0 (doc ["flowchart LR"; "A --> B --> C"])) = [Some "A"] /\ ties (draw0 (doc ["flowchart LR"; "A --> B --> C"])) = [].
Proof. exact (conj chain_cut chain_lost). Qed.
Print Assumptions C62_chain_refuted.
Theorem C62_late_caption_refuted : texts (draw0 (doc ["flowchart LR"; "A --> B"; "B[Done]"])) = [Some "A"; Some "B"].
Proof. exact late_caption. Qed.
Print Assumptions C62_late_caption_refuted.
Theorem C62_two_groups_refuted : texts (draw0 (doc ["flowchart LR"; "subgraph P"; "A"; "end"; "subgraph Q"; "A"; "end"])) = [None; Some "P"; Some "A"; None; Some "Q"; Some "A"].
Proof. exact drawn_twice. Qed.
Print Assumptions C62_two_groups_refuted.
Theorem C62_nested_refuted : texts (draw0 (doc ["flowchart LR"; "subgraph P"; "A"; "subgraph Q"; "B"; "end"; "end"])) = [None; Some "Q"; Some "B"; Some "A"].
Proof. exact outer_lost. Qed.
Print Assumptions C62_nested_refuted.
Theorem C62_backwards_refuted : forall rest,
  draw0 ("flowchart RL" ++ nl ++ rest) = draw0 ("flowchart LR" ++ nl ++ rest) /\ draw0 ("flowchart BT" ++ nl ++ rest) = draw0 ("flowchart TB" ++ nl ++ rest).
Proof. exact backwards. Qed.
Print Assumptions C62_backwards_refuted.
Theorem C62_order_refuted : spots (flow_drawing wordy0 (fun l => l) (doc ["flowchart LR"; "A --> B"])) <> spots (flow_drawing wordy0 (@rev node) (doc ["flowchart LR"; "A --> B"])).
Proof. exact order_shows. Qed.
Print Assumptions C62_order_refuted.
Theorem C62_arrow_refuted : texts (draw0 (doc ["flowchart LR"; "A[x --> y]"])) = [] /\ map end_arrow (d_connectors (draw0 (doc ["flowchart LR"; "A --- B"]))) = [Triangle].
Proof. exact (conj arrow_in_caption open_has_head). Qed.
Print Assumptions C62_arrow_refuted.
