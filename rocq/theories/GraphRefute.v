(** State, class and entity diagrams with everything in them, and ones that are not drawn as they read. *)
From Coq Require Import String Ascii List Bool Arith NArith Permutation.
From Verif Require Import Str Num ShapeModel ConnectorModel FlowModel FlowSpec FlowRefute DiagramModel DiagramSpec DiagramCommon DiagramTime DiagramRefute GraphSpec GraphCommon GraphThms GraphEr.
Import ListNotations.
Open Scope nat_scope.
Open Scope string_scope.

(** The lines of a drawing, by the texts of the shapes they are tied to. *)
Definition text_at (d : drawing) (i : option N) : option string :=
  match List.find (fun s => match sh_id s, i with Some a, Some b => N.eqb a b | _, _ => false end) (d_shapes d) with Some s => sh_text s | None => None end.
Definition drawn_lines (l : list string) : list (option string * option string) := let d := draw out0 (doc l) in map (fun c => (text_at d (start_shape c), text_at d (end_shape c))) (d_connectors d).

(** ** State diagrams *)
Definition state0 : list state_item :=
  [SAside "direction LR"; Move Edge (At "Still") None; Move (At "Still") (At "Moving fast") (Some "go: now"); SAside "%% a --> b"; Move (At "Moving fast") (At "Still") None; Move (At "Moving fast") (At "Crash") (Some "tree"); Move (At "Crash") (At "Crash") None; SAside ""; Move (At "Crash") Edge None].
Definition state_code : string := FlowRefute.doc
  ["stateDiagram-v2"; "    direction LR"; "    [*] --> Still"; "  Still --> Moving fast : go: now"; "%% a --> b"; "Moving fast --> Still"; "Moving fast --> Crash : tree"; "Crash --> Crash"; ""; "Crash --> [*]"].
Lemma state_fine : forallb state_ok state0 = true /\ few (state_names state0) /\ few (moves state0) /\ writes "stateDiagram-v2" (map state_text state0) state_code.
Proof. split; [vm_compute; reflexivity|]. split; [apply Nat.leb_le; vm_compute; reflexivity|]. split; [apply Nat.leb_le; vm_compute; reflexivity|]. exists (tl (lines state_code)). split; vm_compute; reflexivity. Qed.
Lemma state_shown : state_names state0 = ["Start"; "Still"; "Moving fast"; "Crash"; "End"] /\ length (moves state0) = 6 /\ texts (draw out0 state_code) = [Some "Start"; Some "Still"; Some "Moving fast"; Some "Crash"; Some "End"; Some "go: now"; Some "tree"].
Proof. repeat split; vm_compute; reflexivity. Qed.
(** A state called "Start" is the start. *)
Lemma start_taken : drawn_texts ["stateDiagram"; "[*] --> Start"; "Start --> Run"] = [Some "Start"; Some "Run"]
  /\ drawn_lines ["stateDiagram"; "[*] --> Start"; "Start --> Run"] = [(Some "Start", Some "Start"); (Some "Start", Some "Run")].
Proof. split; vm_compute; reflexivity. Qed.
(** Descriptions of states and names given with [as] are lost. *)
Lemma names_lost : drawn_texts ["stateDiagram"; "s1 : Waiting for input"; "state ""In motion"" as s2"; "s1 --> s2"] = [Some "s1"; Some "s2"].
Proof. vm_compute. reflexivity. Qed.
(** The states inside of a state are drawn beside it, and nothing shows that they are in it. *)
Lemma inner_states : drawn_texts ["stateDiagram"; "[*] --> First"; "state First {"; "[*] --> second"; "}"] = [Some "Start"; Some "First"; Some "second"].
Proof. vm_compute. reflexivity. Qed.
(** The fourth state is drawn below the first; the line back to the left starts at the far side. *)
Lemma back_line : exists c a b, In c (d_connectors (draw out0 (FlowRefute.doc ["stateDiagram"; "A --> B"; "B --> A"]))) /\ In a (d_shapes (draw out0 (FlowRefute.doc ["stateDiagram"; "A --> B"; "B --> A"]))) /\ In b (d_shapes (draw out0 (FlowRefute.doc ["stateDiagram"; "A --> B"; "B --> A"])))
  /\ sh_text a = Some "B" /\ sh_text b = Some "A" /\ start_shape c = sh_id a /\ start_site c = Some Left_ /\ start_x c = right_of a /\ end_site c = Some Right_ /\ end_x c = sh_x b.
Proof.
  eexists. eexists. eexists. split; [vm_compute; right; left; reflexivity|]. split; [vm_compute; right; left; reflexivity|]. split; [vm_compute; left; reflexivity|]. repeat split; reflexivity.
Qed.
(** A label covers the edges of the boxes it stands between. *)
Lemma label_covers : exists a l, In a (d_shapes (draw out0 (FlowRefute.doc ["stateDiagram"; "A --> B : x"]))) /\ In l (d_shapes (draw out0 (FlowRefute.doc ["stateDiagram"; "A --> B : x"]))) /\ sh_text a = Some "A" /\ sh_text l = Some "x" /\ (sh_x l < right_of a)%N /\ (sh_y a < sh_y l)%N /\ (bottom_of l < bottom_of a)%N.
Proof. eexists. eexists. split; [vm_compute; left; reflexivity|]. split; [vm_compute; do 2 right; left; reflexivity|]. repeat split; reflexivity. Qed.

(** ** Class diagrams *)
Definition class0 : list class_item :=
  [CAside "%% animals"; Class "Animal" ["+int age"; "+isMammal() bool"; "+mate()"]; CAside "direction RL"; Class "Duck" ["+String beakColor"]; CAside ""; Class "Fish~T~" []; Class "Zebra" ["+run()"]; Related "Animal" "<|--" "Duck"; Related "Duck" "-->" "Zebra"; Related "Zebra" "--" "Zebra"; Related "Animal" "<|--" "Ghost"].
Definition class_code : string := FlowRefute.doc
  ["classDiagram"; "%% animals"; "  class Animal {"; "    +int age"; "    +isMammal() bool"; "    +mate()"; "  }"; "direction RL"; "class Duck {"; "+String beakColor"; "}"; ""; "class Fish~T~ {"; "}"; "class Zebra {"; "+run()"; "}"; "  Animal <|-- Duck"; "Duck --> Zebra"; "Zebra -- Zebra"; "Animal <|-- Ghost"].
Lemma class_fine : forallb class_ok class0 = true /\ NoDup (class_names class0) /\ few (classes class0) /\ Forall (fun c => few (snd c)) (classes class0) /\ writes "classDiagram" (flat_map class_text class0) class_code.
Proof.
  split; [vm_compute; reflexivity|]. split; [unfold class_names; cbn; repeat (constructor; [cbn; intuition discriminate|]); constructor|]. split; [apply Nat.leb_le; vm_compute; reflexivity|]. split; [repeat constructor; apply Nat.leb_le; vm_compute; reflexivity|].
  exists (tl (lines class_code)). split; vm_compute; reflexivity.
Qed.
Lemma class_shown : Forall short_class (classes class0) /\ relations class0 = [("Animal", "Duck"); ("Duck", "Zebra"); ("Zebra", "Zebra")]
  /\ texts (draw out0 class_code) = [Some "Animal"; Some "+int age"; Some ("+isMammal() bool" ++ nl ++ "+mate()"); Some "Duck"; Some "+String beakColor"; Some ""; Some "Fish~T~"; Some ""; Some ""; Some "Zebra"; Some ""; Some "+run()"].
Proof. split; [repeat constructor; apply Nat.leb_le; vm_compute; reflexivity|]. split; vm_compute; reflexivity. Qed.
(** All arrows look the same, and inheritance points at the heir. *)
Definition all_plain (doc : list class_item) : list class_item := map (fun it => match it with Related a _ b => Related a "-->" b | _ => it end) doc.
Lemma arrows_lost o doc c1 c2 : forallb class_ok doc = true ->
  writes "classDiagram" (flat_map class_text doc) c1 -> writes "classDiagram" (flat_map class_text (all_plain doc)) c2 -> draw o c1 = draw o c2.
Proof.
  intros H W1 W2. apply rows_written in W1 as [R1 L1], W2 as [R2 L2].
  assert (H' : forallb class_ok (all_plain doc) = true).
  { unfold all_plain. rewrite forallb_forall in *. intros it I. apply in_map_iff in I as (it' & <- & I). specialize (H it' I). destruct it' as [n l|a r b|t]; try exact H. cbn [class_ok] in *. apply andb_prop in H as [H _]. apply andb_prop in H as [H _]. rewrite H. reflexivity. }
  assert (S : classes (all_plain doc) = classes doc). { unfold classes, all_plain. rewrite flat_map_map. apply flat_map_ext. now intros []. }
  assert (T : flat_map related (all_plain doc) = flat_map related doc). { unfold all_plain. rewrite flat_map_map. apply flat_map_ext. now intros []. }
  assert (D : forall c, first_line c = "classDiagram" -> draw o c = class_drawing c). { intros c L. unfold draw, create_diagram_elements, detect_type. rewrite L. reflexivity. }
  rewrite (D c1 L1), (D c2 L2). unfold class_drawing. rewrite R1, R2. destruct (class_read doc H [] "" [] [] []) as (n1 & a1 & m1 & ->). destruct (class_read (all_plain doc) H' [] "" [] [] []) as (n2 & a2 & m2 & ->). cbn [c_classes c_rels app]. now rewrite S, T.
Qed.
Lemma heir_pointed : drawn_lines ["classDiagram"; "class Animal {"; "}"; "class Duck {"; "}"; "Animal <|-- Duck"] = [(Some "Animal", Some "Duck")]
  /\ map end_arrow (d_connectors (draw out0 (FlowRefute.doc ["classDiagram"; "class Animal {"; "}"; "class Duck {"; "}"; "Animal <|-- Duck"]))) = [Triangle].
Proof. split; vm_compute; reflexivity. Qed.
(** A relation with a label is lost, and so is a class without a body. *)
Lemma label_loses : drawn_lines ["classDiagram"; "class A {"; "}"; "class B {"; "}"; "A --> B : uses"] = [].
Proof. vm_compute. reflexivity. Qed.
Lemma bare_class : drawn_texts ["classDiagram"; "class A"; "A : +int age"; "A --> B"] = [].
Proof. vm_compute. reflexivity. Qed.
(** A body on one line takes in the lines after it. *)
Lemma one_line_body : drawn_texts ["classDiagram"; "class A {}"; "A --> B"; "class B {"; "}"] = [Some "B"; Some ""; Some ""].
Proof. vm_compute. reflexivity. Qed.
(** Seven lines, and the class below is covered. *)
Lemma long_class : let d := d_shapes (draw out0 (FlowRefute.doc (["classDiagram"; "class A {"; "a"; "b"; "c"; "d"; "e"; "f"; "}"; "class B {"; "}"; "class C {"; "}"; "class D {"; "}"]))) in
  exists s t, In s d /\ In t d /\ sh_text s = Some "" /\ sh_text t = Some "D" /\ ~ clear s t.
Proof.
  cbv zeta. eexists. eexists. split; [vm_compute; do 2 right; left; reflexivity|]. split; [vm_compute; do 9 right; left; reflexivity|]. split; [reflexivity|]. split; [reflexivity|].
  unfold clear, left_to, over, right_of, bottom_of. vm_compute. intros [H|[H|[H|H]]]; apply H; reflexivity.
Qed.

(** ** Entity diagrams *)
Definition er0 : list er_item :=
  [EAside "%% shop"; Entity "CUSTOMER" ["string name PK"; "int age"]; Bond "CUSTOMER" "||--o{" "ORDER" (Some "places"); EAside ""; Bond "ORDER" "||--|{" "LINE_ITEM" None; Entity "CUSTOMER" ["string email"]; Entity "Pet" []; Bond "ORDER" "}o--||" "ORDER" (Some "repeats: it")].
Definition er_code : string := FlowRefute.doc
  ["erDiagram"; "%% shop"; "  CUSTOMER {"; "    string name PK"; "    int age"; "  }"; "CUSTOMER ||--o{ ORDER : places"; ""; "ORDER ||--|{ LINE_ITEM"; "CUSTOMER {"; "string email"; "}"; "Pet {"; "}"; "ORDER }o--|| ORDER : repeats: it"].
Lemma er_fine : (forall l, Permutation (o_entities out0 l) l) /\ forallb (er_ok (o_alpha out0)) er0 = true /\ few (entities er0) /\ Forall (fun e => few (snd e)) (entities er0) /\ few (bonds er0) /\ writes "erDiagram" (flat_map er_text er0) er_code.
Proof.
  split; [intros l; apply Permutation_refl|]. split; [vm_compute; reflexivity|]. split; [apply Nat.leb_le; vm_compute; reflexivity|]. split; [repeat constructor; apply Nat.leb_le; vm_compute; reflexivity|]. split; [apply Nat.leb_le; vm_compute; reflexivity|].
  exists (tl (lines er_code)). split; vm_compute; reflexivity.
Qed.
Lemma er_shown : entities er0 = [("CUSTOMER", ["string name PK"; "int age"; "string email"]); ("ORDER", []); ("LINE_ITEM", []); ("Pet", [])]
  /\ texts (draw out0 er_code) = [Some "CUSTOMER"; Some ("string name PK" ++ nl ++ "int age" ++ nl ++ "string email"); Some "ORDER"; Some ""; Some "LINE_ITEM"; Some ""; Some "Pet"; Some ""; Some "places"; Some "repeats: it"].
Proof. split; vm_compute; reflexivity. Qed.
(** A name with a small [o] or a dash in it is cut. *)
Lemma names_cut : drawn_texts ["erDiagram"; "Customer ||--|| Order"] = [Some "Cust"; Some ""; Some "Order"; Some ""] /\ drawn_texts ["erDiagram"; "A ||--|| LINE-ITEM"] = [Some "A"; Some ""; Some "ITEM"; Some ""].
Proof. split; vm_compute; reflexivity. Qed.
(** Zero or one on both sides is not read as a bond. *)
Lemma card_lost : drawn_texts ["erDiagram"; "A |o--o| B"] = [].
Proof. vm_compute. reflexivity. Qed.
(** The two numbers on a bond make no difference. *)
Definition all_ones (doc : list er_item) : list er_item := map (fun it => match it with Bond a _ b l => Bond a "||--||" b l | _ => it end) doc.
Lemma cards_lost o doc c1 c2 : forallb (er_ok (o_alpha o)) doc = true ->
  writes "erDiagram" (flat_map er_text doc) c1 -> writes "erDiagram" (flat_map er_text (all_ones doc)) c2 -> draw o c1 = draw o c2.
Proof.
  intros H W1 W2. apply rows_written in W1 as [R1 L1], W2 as [R2 L2].
  assert (H' : forallb (er_ok (o_alpha o)) (all_ones doc) = true).
  { unfold all_ones. rewrite forallb_forall in *. intros it I. apply in_map_iff in I as (it' & <- & I). specialize (H it' I). destruct it' as [n l|a r b l|t]; try exact H. cbn [er_ok] in *. apply andb_prop in H as [H ->]. apply andb_prop in H as [H _]. rewrite H. reflexivity. }
  assert (S : entities (all_ones doc) = entities doc).
  { unfold entities, er_mentions, all_ones. rewrite flat_map_map. replace (flat_map (fun a => match (match a with Bond a0 _ b l => Bond a0 "||--||" b l | _ => a end) with Entity n _ => [n] | Bond a0 _ b _ => [a0; b] | EAside _ => [] end) doc) with (er_mentions doc) by (unfold er_mentions; apply flat_map_ext; now intros []).
    apply map_ext. intros n. f_equal. rewrite flat_map_map. apply flat_map_ext. now intros []. }
  assert (T : bonds (all_ones doc) = bonds doc). { unfold bonds, all_ones. rewrite flat_map_map. apply flat_map_ext. now intros []. }
  assert (D : forall c, first_line c = "erDiagram" -> draw o c = er_drawing (o_alpha o) (o_entities o) c). { intros c L. unfold draw, create_diagram_elements, detect_type. rewrite L. reflexivity. }
  rewrite (D c1 L1), (D c2 L2). unfold er_drawing. rewrite R1, R2, !er_read_all by assumption. now rewrite S, T.
Qed.
(** The places depend on the order of the hash table. *)
Definition out_rev : outside := {| o_alpha := o_alpha out0; o_num := o_num out0; o_f64 := o_f64 out0; o_percent := o_percent out0; o_ring1 := o_ring1 out0; o_ring2 := o_ring2 out0; o_spot := o_spot out0; o_wordy := o_wordy out0; o_order := o_order out0; o_entities := @rev _ |}.
Lemma hash_places : (forall l, Permutation (o_entities out_rev l) l) /\ texts (draw out_rev (FlowRefute.doc ["erDiagram"; "A ||--|| B"])) = [Some "B"; Some ""; Some "A"; Some ""].
Proof. split; [intros l; apply Permutation_sym, Permutation_rev|vm_compute; reflexivity]. Qed.
