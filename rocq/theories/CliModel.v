(** Model of src/cli/commands.rs, src/bin/pptcli.rs and
    src/core/package_validation/report.rs: what the command-line tool prints about
    a file, where it writes, and merging.  Arguments are taken after clap; text is
    UTF-8 bytes, what is printed is standard output as one text. *)
From Coq Require Import String Ascii List Bool Arith NArith.
From Verif Require ShapeModel.
From Verif Require Import Str Num ExportModel ValidModel PackageModel DeckModel ImportModel McpModel.
Import ListNotations.
Open Scope nat_scope.
Open Scope string_scope.

(** report.rs:5-8, 26-32, 63-66 *)
Inductive severity := Warning | Error.
Record finding := Finding { f_category : category; f_severity : severity; f_message : string; f_path : option string }.
(** report.rs:68-89 [is_valid], [error_count], [warning_count] *)
Definition is_error (i : finding) : bool := match f_severity i with Error => true | Warning => false end.
Definition report_is_valid (r : list finding) : bool := forallb (fun i => negb (is_error i)) r.
Definition error_count (r : list finding) : nat := length (filter is_error r).
Definition warning_count (r : list finding) : nat := length (filter (fun i => negb (is_error i)) r).
(** report.rs:11 [#[derive(Debug)]] *)
Definition category_name (c : category) : string :=
  match c with
  | MissingPart => "MissingPart" | Relationship => "Relationship" | ContentType => "ContentType"
  | ValidModel.Presentation => "Presentation" | SlideMaster => "SlideMaster" | ValidModel.Slide => "Slide"
  | Chart => "Chart" | Xml => "Xml" | Theme => "Theme"
  end.

(** The low digits of [{:x}]: Num's digits are upper case. *)
Definition hex_lower (n : N) : ascii := ascii_of_N (if (n <? 10)%N then 48 + n else 87 + n).
(** [format!("\\u{:04x}", c as u32)] for a character below U+0100. *)
Definition unicode_escape (n : N) : string :=
  "\u00" ++ s1 (hex_lower (n / 16)) ++ s1 (hex_lower (n mod 16)).
(** commands.rs:271-286 [json_string].  [char::is_control] is true of U+0000 to
    U+001F, of U+007F, and of U+0080 to U+009F, which are the bytes C2 80 to C2 9F. *)
Definition is_c1 (c : ascii) : bool := let n := N_of_ascii c in ((128 <=? n) && (n <=? 159))%N.
Fixpoint json_body (s : string) : string :=
  match s with
  | "" => ""
  | String c s =>
      if Ascii.eqb c DQ then "\" ++ dq ++ json_body s
      else if Ascii.eqb c "\" then "\\" ++ json_body s
      else if Ascii.eqb c LF then "\n" ++ json_body s
      else if Ascii.eqb c CR then "\r" ++ json_body s
      else if Ascii.eqb c TAB then "\t" ++ json_body s
      else if ((N_of_ascii c <? 32) || (N_of_ascii c =? 127))%N then unicode_escape (N_of_ascii c) ++ json_body s
      else if Ascii.eqb c "194" then
        match s with
        | String d s' => if is_c1 d then unicode_escape (N_of_ascii d) ++ json_body s' else String c (json_body s)
        | "" => String c ""
        end
      else String c (json_body s)
  end.
Definition json_string (s : string) : string := dq ++ json_body s ++ dq.

(** commands.rs:239-268 [print_json]; [println!] ends a line with a newline. *)
Definition key (k : string) : string := dq ++ k ++ dq ++ ": ".
Definition json_finding (comma : bool) (i : finding) : string :=
  "    {" ++ nl
  ++ "      " ++ key "severity" ++ dq ++ (match f_severity i with Error => "error" | Warning => "warning" end) ++ dq ++ "," ++ nl
  ++ "      " ++ key "category" ++ dq ++ category_name (f_category i) ++ dq ++ "," ++ nl
  ++ "      " ++ key "path" ++ (match f_path i with Some p => json_string p | None => "null" end) ++ "," ++ nl
  ++ "      " ++ key "message" ++ json_string (f_message i) ++ nl
  ++ "    }" ++ (if comma then "," else "") ++ nl.
Fixpoint json_findings (n i : nat) (l : list finding) : string :=
  match l with
  | [] => ""
  | x :: l => json_finding (Nat.ltb (i + 1) n) x ++ json_findings n (S i) l
  end.
Definition print_json (file : string) (r : list finding) : string :=
  "{" ++ nl
  ++ "  " ++ key "file" ++ json_string file ++ "," ++ nl
  ++ "  " ++ key "valid" ++ (if report_is_valid r then "true" else "false") ++ "," ++ nl
  ++ "  " ++ key "error_count" ++ decn (error_count r) ++ "," ++ nl
  ++ "  " ++ key "warning_count" ++ decn (warning_count r) ++ "," ++ nl
  ++ "  " ++ key "issues" ++ "[" ++ nl
  ++ json_findings (length r) 0 r
  ++ "  ]" ++ nl
  ++ "}" ++ nl.
(** commands.rs:202-237 [print_human] *)
Definition summary_line (r : list finding) : string :=
  "Summary: " ++ decn (error_count r) ++ " error(s), " ++ decn (warning_count r) ++ " warning(s)" ++ nl.
Definition human_finding (i : finding) : string :=
  "[" ++ (match f_severity i with Error => "ERROR" | Warning => "WARNING" end) ++ "] " ++ category_name (f_category i) ++ "  "
  ++ (match f_path i with Some p => p | None => "-" end) ++ nl ++ "  " ++ f_message i ++ nl.
Definition print_human (file : string) (r : list finding) : string :=
  "Validating PPTX file: " ++ file ++ nl
  ++ "============================================================" ++ nl
  ++ summary_line r
  ++ (match r with
      | [] => nl ++ "✓ Validation PASSED — no issues found" ++ nl
      | _ => nl ++ sconcat (map human_finding r)
             ++ nl ++ (if report_is_valid r then "✓ Validation PASSED (warnings only)" else "✗ Validation FAILED") ++ nl
      end).
(** commands.rs:181-200 [ValidateCommand::execute] and pptcli.rs:75-87: standard
    output and the exit status.  [report] is what the checks found, [None] if the
    file cannot be read. *)
Definition validate_command (file : string) (json : bool) (report : option (list finding)) : string * nat :=
  match report with
  | None => ("", 1)
  | Some r =>
      let printed := if json then print_json file r else print_human file r in
      if report_is_valid r then (if json then (printed, 0) else (printed ++ nl ++ "✓ Validation completed successfully" ++ nl, 0))
      else (printed, 1)
  end.

(** [std::path::Path] on Unix: [file_name] and [parent].  The components are what
    is between slashes; empty ones and dots are passed over except at the start. *)
Definition passed_over (c : string) : bool := String.eqb c "" || String.eqb c ".".
Fixpoint drop_passed (l : list string) : list string :=
  match l with [] => [] | c :: l => if passed_over c then drop_passed l else c :: l end.
(** The last component, and the components before it, last first. *)
Definition path_parent (root : string) (before : list string) : string :=
  match root, drop_passed before with
  | "", [] => "/"
  | _, l => sjoin "/" (root :: rev l)
  end.
Definition path_last (path : string) : option (string * string) :=
  match split_char "/" path with
  | [] => None
  | root :: rest =>
      match drop_passed (rev rest) with
      | name :: before => if String.eqb name ".." then None else Some (path_parent root before, name)
      | [] => if String.eqb root "" || String.eqb root "." || String.eqb root ".." then None else Some ("", root)
      end
  end.
(** [Path::file_stem]: the name up to its last dot, unless that is its start. *)
Fixpoint last_dot (s : string) : option string :=
  match s with
  | "" => None
  | String c s => match last_dot s with
                  | Some t => Some (String c t)
                  | None => if Ascii.eqb c "." then Some "" else None
                  end
  end.
Definition file_stem (name : string) : string :=
  match last_dot name with None | Some "" => name | Some t => t end.
(** pptcli.rs:37-53 and 172-188 *)
Definition default_output (input : string) : string :=
  match path_last input with
  | Some (parent, name) => match parent with
                           | "" => file_stem name ++ ".pptx"
                           | _ => parent ++ "/" ++ file_stem name ++ ".pptx"
                           end
  | None => input ++ ".pptx"
  end.

(** parser.rs:329-334, pptcli.rs:102-115.  [str::to_lowercase] changes no other
    character into a letter of the endings, so that of ASCII is taken. *)
Inductive export_format := Pdf | Html | Png.
Definition export_choice (asked : option export_format) (output : string) : export_format :=
  match asked with
  | Some f => f
  | None =>
      let out_lower := ShapeModel.lowercase output in
      if ends_with ".pdf" out_lower then Pdf
      else if ends_with ".html" out_lower then Html
      else if ends_with ".png" out_lower then Png
      else Pdf
  end.

Section MERGE.
  Context (X : statics) (fit : string -> N -> N -> N).
  (** [std::fs] and the archive reader: what there is at a path. *)
  Variable load : string -> option (package * list string).
  (** pptcli.rs:131-160: the file written, or none and exit status 1.  The disk
      accepts the file; clap refuses an empty list of inputs (parser.rs:187). *)
  Fixpoint merge_inputs (merged : presentation) (inputs : list string) : option presentation :=
    match inputs with
    | [] => Some merged
    | path :: rest => match from_path fit load path with
                      | Some p => merge_inputs (add_presentation merged p) rest
                      | None => None
                      end
    end.
  Definition merge_command (inputs : list string) : option (list entry) :=
    match inputs with
    | [] => None
    | first :: rest =>
        match from_path fit load first with
        | None => None
        | Some p => match merge_inputs p rest with Some m => build X m | None => None end
        end
    end.
End MERGE.
