(** Model of src/mcp/mod.rs: the tools of the server.  Arguments are taken after
    their JSON has been read; the summary of a file before it is printed as JSON.
    The only error of [save] is that of [build]: the disk accepts the file. *)
From Coq Require Import String Ascii List Bool Arith NArith ZArith.
From Verif Require Import Str PackageModel TableModel ChartModel ShapeModel SlideModel DeckModel MdParseModel ImportModel.
Import ListNotations.
Open Scope string_scope.

(** mod.rs:102-108 [tool_text], [tool_error]; the wording of errors is left out.
    [saved] is the file written. *)
Inductive reply := Failed | Done (text : string) (saved : list entry).
(** mod.rs:25-33, 67-89 *)
Record slide_arg := SlideArg { a_title : string; a_bullets : list string; a_layout : option string }.
Record table_arg := TableArg { t_title : string; t_rows : list (list string) }.
Record chart_arg := ChartArg { c_title : string; c_chart : string; c_type : string; c_cats : list string; c_series : list series }.
(** mod.rs:305-310 *)
Record summary := Summary { m_number : nat; m_title : string; m_bullets : nat; m_features : list string }.

Section MCP.
  Context (X : statics) (fit : string -> N -> N -> N).
  (** [std::fs] and the archive reader: what there is at a path. *)
  Variable load : string -> option (package * list string).
  (** api.rs:117-122 [from_path] *)
  Definition from_path (path : string) : option presentation :=
    match load path with Some (p, keys) => import_pptx fit p keys | None => None end.
  (** api.rs:110-115 [save] *)
  Definition save (p : presentation) (text : string) : reply := match build X p with Some files => Done text files | None => Failed end.

  (** mod.rs:212-249 [handle_create_presentation] *)
  Definition create_slide (a : slide_arg) : slide := fold_left (fun s b => add_bullet b s) (a_bullets a) (slide_new (a_title a)).
  Definition handle_create_presentation (title path : string) (args : list slide_arg) : reply :=
    match map create_slide args with
    | [] => Failed
    | slides =>
        let p := fold_left add_slide slides (with_title title) in
        save p ("Created presentation '" ++ title ++ "' with " ++ decn (length (p_slides p)) ++ " slide(s) at: " ++ path)
    end.
  (** mod.rs:279-322 [handle_get_pptx_info] *)
  Definition features (s : slide) : list string :=
    ((match s_table s with Some _ => ["table"] | None => [] end) ++ (match s_images s with [] => [] | _ => ["images"] end)
     ++ (match s_charts s with [] => [] | _ => ["charts"] end) ++ (match s_shapes s with [] => [] | _ => ["shapes"] end))%list.
  Definition handle_get_pptx_info (path : string) : option (string * nat * list summary) :=
    match from_path path with
    | Some p => Some (p_title p, length (p_slides p), map (fun e => Summary (fst e + 1) (s_title (snd e)) (length (s_bullets (snd e))) (features (snd e))) (combine (seq 0 (length (p_slides p))) (p_slides p)))
    | None => None
    end.
  (** mod.rs:360-392 [handle_merge_pptx] *)
  Fixpoint merge_rest (merged : presentation) (paths : list string) : option presentation :=
    match paths with
    | [] => Some merged
    | path :: rest => match from_path path with Some p => merge_rest (add_presentation merged p) rest | None => None end
    end.
  Definition handle_merge_pptx (paths : list string) (out : string) : reply :=
    if (length paths <? 2)%nat then Failed
    else match paths with
         | [] => Failed
         | first :: rest =>
             match from_path first with
             | None => Failed
             | Some p => match merge_rest p rest with
                         | None => Failed
                         | Some m => save m ("Merged " ++ decn (length paths) ++ " files (" ++ decn (length (p_slides m)) ++ " total slides) to: " ++ out)
                         end
             end
         end.
  (** mod.rs:412-462 [handle_create_with_tables] *)
  Definition bold_cell (c : cell) : cell :=
    Cell (ctext c) true (citalic c) (cunderline c) (text_color c) (background c) (font_size c) (font_family c) (calign c) (cvalign c) (grid_span c) (row_span_of c) (h_merge c) (v_merge c).
  Definition table_row (ri : nat) (r : list string) : row := Row (map (fun t => if Nat.eqb ri 0 then bold_cell (cell_new t) else cell_new t) r) None.
  Definition table_slide (a : table_arg) : list slide :=
    match t_rows a with
    | [] => []
    | r :: _ => if Nat.eqb (length r) 0 then []
                else [with_table (Table (enum_map table_row 0 (t_rows a)) (repeat 2800000%N (length r)) 0 0) (slide_new (t_title a))]
    end.
  Definition handle_create_with_tables (title path : string) (args : list table_arg) : reply :=
    save (fold_left (fun p a => fold_left add_slide (table_slide a) p) args (with_title title))
      ("Created presentation with " ++ decn (length args) ++ " table slide(s) at: " ++ path).
  (** mod.rs:464-517 [handle_create_with_charts] *)
  Definition chart_kind (t : string) : chart_type :=
    if String.eqb t "line" then ChartModel.Line else if String.eqb t "pie" then Pie else if String.eqb t "area" then Area else Bar.
  Definition chart_slide (a : chart_arg) : slide :=
    let s := slide_new (c_title a) in
    Slide (s_title s) (s_content s) (s_bullets s) (s_style s) (s_tsize s) (s_csize s) (s_tbold s) (s_cbold s) (s_titalic s) (s_citalic s) (s_tunder s)
      (s_tcolor s) (s_ccolor s) (s_layout s) (s_transition s) (s_table s) (s_shapes s) (s_images s) (s_notes s) (s_connectors s)
      [Chart (c_chart a) (chart_kind (c_type a)) (c_cats a) (c_series a) 1000000 1000000 4000000 3000000] (s_code s) (s_ink s).
  Definition handle_create_with_charts (title path : string) (args : list chart_arg) : reply :=
    save (fold_left (fun p a => add_slide p (chart_slide a)) args (with_title title))
      ("Created presentation with " ++ decn (length args) ++ " chart slide(s) at: " ++ path).
End MCP.
