(** C77: the command-line tool. *)
From Coq Require Import String Ascii List Bool Arith NArith.
From Verif Require Import Str Num XmlSpec ValidModel PackageModel DeckModel DeckRefute SlideModel ReaderSpec SlideBackSpec DocPropsProofs ImportModel ImportSpec ImportRefute McpModel McpSpec McpRefute CliModel CliSpec CliProofs CliMore.
Import ListNotations.
Open Scope nat_scope.
Open Scope string_scope.

(** C77: whatever the file is called and whatever was found, what [validate --json]
    prints is one JSON value, that of the report. *)
Theorem C77_json : forall (file : string) (r : list finding), read_json (fst (validate_command file true (Some r))) = Some (report_json file r).
Proof. intros file r. rewrite json_printed. exact (json_back file r). Qed.
Print Assumptions C77_json.
Example C77_json_case : let text := "a" ++ dq ++ "\" ++ nl ++ s1 "001" ++ s1 "194" ++ s1 "133" in
  read_json (print_json text [Finding Xml Error text (Some text); Finding Theme Warning "" None]) = Some (report_json text [Finding Xml Error text (Some text); Finding Theme Warning "" None]).
Proof. vm_compute. reflexivity. Qed.
(** The reader is no rubber stamp. *)
Example C77_reader_refuses : map read_json [""; "{"; "[1 2]"; "01"; "[" ++ dq ++ nl ++ dq ++ "]"; dq ++ "\x" ++ dq; "true false"; "nil"; "[1,]"; "{1:2}"] = repeat None 10
  /\ read_json ("[1, {" ++ dq ++ "aé" ++ dq ++ ": null}]") = Some (JArr [JNum "1"; JObj [("a" ++ s1 "195" ++ s1 "169", JNull)]]).
Proof. vm_compute. split; reflexivity. Qed.

(** C77: the exit status is 0 exactly if no error was found, warnings do not count,
    with or without [--json]; a file that cannot be read gives 1 and no output. *)
Theorem C77_status : forall (file : string) (json : bool) (r : list finding),
  (snd (validate_command file json (Some r)) = 0 <-> forall i, In i r -> f_severity i = Warning) /\ snd (validate_command file json (Some r)) <= 1 /\ validate_command file json None = ("", 1).
Proof. intros file json r. destruct (exit_status file json r) as [A B]. exact (conj A (conj B eq_refl)). Qed.
Print Assumptions C77_status.
Example C77_status_case : snd (validate_command "a" true (Some [Finding Theme Warning "m" None])) = 0 /\ snd (validate_command "a" false (Some [Finding Theme Warning "m" None; Finding ValidModel.Slide Error "m" None])) = 1.
Proof. split; reflexivity. Qed.

(** C77: without [--json], the lines printed are the summary, two for each finding
    in order, and the verdict. *)
Theorem C77_lines : forall (file : string) (r : list finding), without LF file -> one_liners r ->
  split_char LF (fst (validate_command file false (Some r))) = (report_lines file r ++ [""])%list.
Proof. exact human_read. Qed.
Print Assumptions C77_lines.
Example C77_lines_case : without LF "deck.pptx" /\ one_liners [Finding ValidModel.Slide Error "bad" (Some "ppt/slides/slide1.xml"); Finding Theme Warning "soft" None].
Proof.
  split; [now apply without_all|]. repeat constructor; try (now apply without_all); cbn [f_path]; intros p E; try discriminate E. injection E as <-. now apply without_all.
Qed.

(** C77: without an output path, the presentation is written beside the input, under
    its name with the ending replaced. *)
Theorem C77_output : forall (n s : string), file_name_ok n -> stem_of n s ->
  default_output n = s ++ ".pptx" /\ forall d, directory_ok d -> default_output (d ++ "/" ++ n) = d ++ "/" ++ s ++ ".pptx".
Proof. intros n s A B. split; [exact (output_here n s A B)|]. intros d D. exact (output_in d n s D A B). Qed.
Print Assumptions C77_output.
Theorem C77_stem : forall n : string, exists s, stem_of n s /\ forall s', stem_of n s' -> s' = s.
Proof. intros n. destruct (stem_exists n) as (s & S). exists s. split; [exact S|]. intros s' S'. rewrite <- (stem_is n s' S'). exact (stem_is n s S). Qed.
Print Assumptions C77_stem.
Example C77_output_case : map default_output ["talk.md"; "d/a.b.md"; "./q.md"; "/srv/notes"; "../.plan"] = ["talk.pptx"; "d/a.b.pptx"; "./q.pptx"; "/srv/notes.pptx"; "../.plan.pptx"]
  /\ file_name_ok "a.b.md" /\ directory_ok "/srv" /\ stem_of "a.b.md" "a.b" /\ stem_of ".plan" ".plan".
Proof.
  split; [reflexivity|]. split; [repeat split; try discriminate; now apply without_all|]. split; [split; [discriminate|intros a; split; intros E]|split].
  - assert (F : ends_with "/" "/srv" = true) by (apply ends_with_iff; now exists a). discriminate F.
  - assert (F : ends_with "/." "/srv" = true) by (apply ends_with_iff; now exists a). discriminate F.
  - left. exists "md". repeat split; [now apply without_all|discriminate].
  - right. split; [reflexivity|]. intros [|c a] b E; [reflexivity|]. exfalso. injection E as _ E. assert (W : without "." "plan") by now apply without_all. exact (W a b E).
Qed.
(** Finding: an input that ends in ".pptx" is overwritten; two inputs that differ
    only in their endings give one output; an input in the root gets two slashes. *)
Theorem C77_overwrites_refuted : default_output "talk.pptx" = "talk.pptx" /\ default_output "talk.md" = default_output "talk.html" /\ default_output "/talk.md" = "//talk.pptx".
Proof. repeat split. Qed.
Print Assumptions C77_overwrites_refuted.

(** C77: the format of an export is the one asked for, else that of the ending in
    letters of either kind, else PDF. *)
Theorem C77_format : forall out : string, (forall f, export_choice (Some f) out = f)
  /\ (ends_in ".pdf" out -> export_choice None out = Pdf) /\ (ends_in ".html" out -> export_choice None out = Html) /\ (ends_in ".png" out -> export_choice None out = Png)
  /\ (~ ends_in ".pdf" out -> ~ ends_in ".html" out -> ~ ends_in ".png" out -> export_choice None out = Pdf).
Proof. intros out. exact (conj (fun f => format_asked f out) (format_found out)). Qed.
Print Assumptions C77_format.
Example C77_format_case : ends_in ".html" "a.HtmL" /\ map (export_choice None) ["a.HtmL"; "b.PNG"; "c.pdf.png"; "c.htm"] = [Html; Png; Png; Pdf].
Proof. split; [|reflexivity]. apply (ends_lower ".html"); reflexivity. Qed.

(** C77: merging takes the slides of all inputs in their order, under the title of
    the first; if one cannot be imported, nothing is written. *)
Theorem C77_merge : forall fit load X inputs decks first, let slides := flat_map snd decks in
  Forall2 (fun p d => saved_deck (load p) (fst d) (snd d)) inputs decks -> slides <> [] -> (N.of_nat (length slides) < u32_max)%N ->
  plain_title (x_now X) = true -> hd_error decks = Some first ->
  exists files, merge_command X fit load inputs = Some files
    /\ forall is_dir keys, (forall n c, In (n, c) files -> is_dir n = false) -> keys_order (open_entries is_dir files) keys ->
       exists q, import_pptx fit (open_entries is_dir files) keys = Some q /\ p_title q = visible (fst first) /\ Forall2 kept_slide slides (p_slides q).
Proof. intros fit load X inputs decks first slides F. exact (merge_command_works fit load X inputs decks first slides F eq_refl). Qed.
Print Assumptions C77_merge.
Example C77_merge_case : Forall2 (fun p d => saved_deck (disk p) (fst d) (snd d)) ["a.pptx"; "b.pptx"] [("First", deck0); ("Second", [slide_new "More"])].
Proof. exact disk_decks. Qed.
Theorem C77_merge_fails : forall fit load X inputs, (exists p, In p inputs /\ from_path fit load p = None) -> merge_command X fit load inputs = None.
Proof. exact merge_command_fails. Qed.
Print Assumptions C77_merge_fails.
