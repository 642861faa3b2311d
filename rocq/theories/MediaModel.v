(** Videos and sounds (src/generator/media.rs) and the parts that hold pictures,
    videos and sounds (src/parts/{image,media}.rs).  [str::to_lowercase] is taken
    for ASCII letters only: other letters are kept (in Rust the Kelvin sign
    becomes a k). *)
From Coq Require Import String Ascii List Bool Arith NArith.
From Verif Require Import Str Num EscapeModel ShapeModel.
Import ListNotations.
Open Scope string_scope.

(** media.rs:7-16 [VideoFormat] *)
Inductive vformat := Mp4 | Wmv | Avi | Mov | Mkv | Webm | M4v.
(** media.rs:20-31 [mime_type] *)
Definition vmime (f : vformat) : string :=
  match f with Mp4 => "video/mp4" | Wmv => "video/x-ms-wmv" | Avi => "video/x-msvideo" | Mov => "video/quicktime" | Mkv => "video/x-matroska" | Webm => "video/webm" | M4v => "video/x-m4v" end.
(** media.rs:33-44 [extension] *)
Definition vext (f : vformat) : string :=
  match f with Mp4 => "mp4" | Wmv => "wmv" | Avi => "avi" | Mov => "mov" | Mkv => "mkv" | Webm => "webm" | M4v => "m4v" end.
(** A [match] on strings: the first arm that is equal. *)
Fixpoint arm {A} (s : string) (l : list (string * A)) : option A := match l with [] => None | (k, v) :: l => if String.eqb s k then Some v else arm s l end.
(** media.rs:46-58 [from_extension] *)
Definition vfrom (ext : string) : option vformat :=
  arm (lowercase ext) [("mp4", Mp4); ("wmv", Wmv); ("avi", Avi); ("mov", Mov); ("mkv", Mkv); ("webm", Webm); ("m4v", M4v)].
(** media.rs:61-112 [AudioFormat] likewise *)
Inductive aformat := Mp3 | Wav | Wma | M4a | Ogg | Flac | Aac.
Definition amime (f : aformat) : string :=
  match f with Mp3 => "audio/mpeg" | Wav => "audio/wav" | Wma => "audio/x-ms-wma" | M4a => "audio/mp4" | Ogg => "audio/ogg" | Flac => "audio/flac" | Aac => "audio/aac" end.
Definition aext (f : aformat) : string :=
  match f with Mp3 => "mp3" | Wav => "wav" | Wma => "wma" | M4a => "m4a" | Ogg => "ogg" | Flac => "flac" | Aac => "aac" end.
Definition afrom (ext : string) : option aformat :=
  arm (lowercase ext) [("mp3", Mp3); ("wav", Wav); ("wma", Wma); ("m4a", M4a); ("ogg", Ogg); ("flac", Flac); ("aac", Aac)].
(** media.rs:115-147 [VideoOptions] and its default *)
Record voptions := VOptions { vo_auto : bool; vo_loop : bool; vo_hide : bool; vo_muted : bool; vo_start : option N; vo_end : option N; vo_volume : N }.
Definition vdefault : voptions := VOptions false false false false None None 100.
(** media.rs:149-186: auto-play, the setters *)
Definition v_auto_play : voptions := let d := vdefault in VOptions true (vo_loop d) (vo_hide d) (vo_muted d) (vo_start d) (vo_end d) (vo_volume d).
Definition v_with_loop (b : bool) (o : voptions) : voptions := VOptions (vo_auto o) b (vo_hide o) (vo_muted o) (vo_start o) (vo_end o) (vo_volume o).
Definition v_with_muted (b : bool) (o : voptions) : voptions := VOptions (vo_auto o) (vo_loop o) (vo_hide o) b (vo_start o) (vo_end o) (vo_volume o).
Definition v_with_volume (n : N) (o : voptions) : voptions := VOptions (vo_auto o) (vo_loop o) (vo_hide o) (vo_muted o) (vo_start o) (vo_end o) (N.min n 100).
Definition v_with_start (n : N) (o : voptions) : voptions := VOptions (vo_auto o) (vo_loop o) (vo_hide o) (vo_muted o) (Some n) (vo_end o) (vo_volume o).
Definition v_with_end (n : N) (o : voptions) : voptions := VOptions (vo_auto o) (vo_loop o) (vo_hide o) (vo_muted o) (vo_start o) (Some n) (vo_volume o).
(** media.rs:188-241 [AudioOptions], its default, the setters *)
Record aoptions := AOptions { ao_auto : bool; ao_loop : bool; ao_hide : bool; ao_across : bool; ao_volume : N }.
Definition adefault : aoptions := AOptions false false false false 100.
Definition a_auto_play : aoptions := let d := adefault in AOptions true (ao_loop d) (ao_hide d) (ao_across d) (ao_volume d).
Definition a_with_loop (b : bool) (o : aoptions) : aoptions := AOptions (ao_auto o) b (ao_hide o) (ao_across o) (ao_volume o).
Definition a_with_across (b : bool) (o : aoptions) : aoptions := AOptions (ao_auto o) (ao_loop o) (ao_hide o) b (ao_volume o).
Definition a_with_volume (n : N) (o : aoptions) : aoptions := AOptions (ao_auto o) (ao_loop o) (ao_hide o) (ao_across o) (N.min n 100).
(** media.rs:243-264 [Video], 308-327 [Audio] *)
Record video := Video { v_source : string; v_format : vformat; v_x : N; v_y : N; v_w : N; v_h : N; v_options : voptions; v_poster : option string; v_alt : option string }.
Record audio := Audio { u_source : string; u_format : aformat; u_x : N; u_y : N; u_w : N; u_h : N; u_options : aoptions; u_alt : option string }.
(** media.rs:266-280, 329-342 [new] *)
Definition video_new (s : string) (f : vformat) (x y w h : N) : video := Video s f x y w h vdefault None None.
Definition audio_new (s : string) (f : aformat) (x y w h : N) : audio := Audio s f x y w h adefault None.
(** [path.rsplit('.').next()]: what follows the last dot, or everything. *)
Definition after_dot (s : string) : string := last (split_char "." s) "".
(** media.rs:282-287, 344-349 [from_file] *)
Definition video_from_file (path : string) (x y w h : N) : option video :=
  match vfrom (after_dot path) with Some f => Some (video_new path f x y w h) | None => None end.
Definition audio_from_file (path : string) (x y w h : N) : option audio :=
  match afrom (after_dot path) with Some f => Some (audio_new path f x y w h) | None => None end.
(** media.rs:289-305, 351-361 the setters *)
Definition v_with_options (o : voptions) (v : video) : video := Video (v_source v) (v_format v) (v_x v) (v_y v) (v_w v) (v_h v) o (v_poster v) (v_alt v).
Definition v_with_poster (p : string) (v : video) : video := Video (v_source v) (v_format v) (v_x v) (v_y v) (v_w v) (v_h v) (v_options v) (Some p) (v_alt v).
Definition v_with_alt (a : string) (v : video) : video := Video (v_source v) (v_format v) (v_x v) (v_y v) (v_w v) (v_h v) (v_options v) (v_poster v) (Some a).
Definition a_with_options (o : aoptions) (u : audio) : audio := Audio (u_source u) (u_format u) (u_x u) (u_y u) (u_w u) (u_h u) o (u_alt u).
Definition a_with_alt (a : string) (u : audio) : audio := Audio (u_source u) (u_format u) (u_x u) (u_y u) (u_w u) (u_h u) (u_options u) (Some a).
(** media.rs:364-406 [generate_video_xml]: the id of the poster is not used. *)
Definition or_else (d : string) (o : option string) : string := match o with Some s => s | None => d end.
Definition video_xml (v : video) (shape_id : N) (video_id image_id : string) : string :=
  ("<p:pic>
<p:nvPicPr>
<p:cNvPr id=""" ++ dec shape_id ++ """ name=""Video " ++ dec shape_id ++ """ descr=""" ++ escape_xml (or_else "Video" (v_alt v)) ++ """>
<a:hlinkClick r:id="""" action=""ppaction://media""/>
</p:cNvPr>
<p:cNvPicPr>
<a:picLocks noChangeAspect=""1""/>
</p:cNvPicPr>
<p:nvPr>
<a:videoFile r:link=""" ++ video_id ++ """/>
<p:extLst>
<p:ext uri=""{DAA4B4D4-6D71-4841-9C94-3DE7FCFB9230}"">
<p14:media xmlns:p14=""http://schemas.microsoft.com/office/powerpoint/2010/main"" r:embed=""" ++ video_id ++ """/>
</p:ext>
</p:extLst>
</p:nvPr>
</p:nvPicPr>
<p:blipFill>
<a:blip r:embed=""" ++ video_id ++ """/>
<a:stretch>
<a:fillRect/>
</a:stretch>
</p:blipFill>
<p:spPr>
<a:xfrm>
<a:off x=""" ++ dec (v_x v) ++ """ y=""" ++ dec (v_y v) ++ """/>
<a:ext cx=""" ++ dec (v_w v) ++ """ cy=""" ++ dec (v_h v) ++ """/>
</a:xfrm>
<a:prstGeom prst=""rect"">
<a:avLst/>
</a:prstGeom>
</p:spPr>
</p:pic>").
(** media.rs:408-450 [generate_audio_xml] *)
Definition audio_xml (u : audio) (shape_id : N) (audio_id : string) : string :=
  ("<p:pic>
<p:nvPicPr>
<p:cNvPr id=""" ++ dec shape_id ++ """ name=""Audio " ++ dec shape_id ++ """ descr=""" ++ escape_xml (or_else "Audio" (u_alt u)) ++ """>
<a:hlinkClick r:id="""" action=""ppaction://media""/>
</p:cNvPr>
<p:cNvPicPr>
<a:picLocks noChangeAspect=""1""/>
</p:cNvPicPr>
<p:nvPr>
<a:audioFile r:link=""" ++ audio_id ++ """/>
<p:extLst>
<p:ext uri=""{DAA4B4D4-6D71-4841-9C94-3DE7FCFB9230}"">
<p14:media xmlns:p14=""http://schemas.microsoft.com/office/powerpoint/2010/main"" r:embed=""" ++ audio_id ++ """/>
</p:ext>
</p:extLst>
</p:nvPr>
</p:nvPicPr>
<p:blipFill>
<a:blip r:embed=""" ++ audio_id ++ """/>
<a:stretch>
<a:fillRect/>
</a:stretch>
</p:blipFill>
<p:spPr>
<a:xfrm>
<a:off x=""" ++ dec (u_x u) ++ """ y=""" ++ dec (u_y u) ++ """/>
<a:ext cx=""" ++ dec (u_w u) ++ """ cy=""" ++ dec (u_h u) ++ """/>
</a:xfrm>
<a:prstGeom prst=""rect"">
<a:avLst/>
</a:prstGeom>
</p:spPr>
</p:pic>").
(** media.rs:452-468 [video_content_type], [audio_content_type] *)
Definition video_type (f : vformat) : string := ("<Default Extension=""" ++ vext f ++ """ ContentType=""" ++ vmime f ++ """/>").
Definition audio_type (f : aformat) : string := ("<Default Extension=""" ++ aext f ++ """ ContentType=""" ++ amime f ++ """/>").

(** ** Parts *)
(** parts/base.rs:52-60 [ContentType::Image(fmt).mime_type()] *)
Definition image_content (fmt : string) : string :=
  match arm fmt [("png", "image/png"); ("jpeg", "image/jpeg"); ("jpg", "image/jpeg"); ("gif", "image/gif"); ("bmp", "image/bmp"); ("tiff", "image/tiff"); ("svg", "image/svg+xml")] with
  | Some t => t | None => "application/octet-stream" end.
(** parts/media.rs:8-21 [MediaFormat], 23-57 its extension and type, 59-74 [is_video], 76-91 [from_extension] *)
Inductive mformat := PMp4 | PWebm | PAvi | PWmv | PMov | PMp3 | PWav | PWma | PM4a | POgg.
Definition mext (f : mformat) : string :=
  match f with PMp4 => "mp4" | PWebm => "webm" | PAvi => "avi" | PWmv => "wmv" | PMov => "mov" | PMp3 => "mp3" | PWav => "wav" | PWma => "wma" | PM4a => "m4a" | POgg => "ogg" end.
Definition mmime (f : mformat) : string :=
  match f with PMp4 => "video/mp4" | PWebm => "video/webm" | PAvi => "video/x-msvideo" | PWmv => "video/x-ms-wmv" | PMov => "video/quicktime"
  | PMp3 => "audio/mpeg" | PWav => "audio/wav" | PWma => "audio/x-ms-wma" | PM4a => "audio/mp4" | POgg => "audio/ogg" end.
Definition is_video (f : mformat) : bool := match f with PMp4 | PWebm | PAvi | PWmv | PMov => true | _ => false end.
Definition mfrom (ext : string) : option mformat :=
  arm (lowercase ext) [("mp4", PMp4); ("webm", PWebm); ("avi", PAvi); ("wmv", PWmv); ("mov", PMov); ("mp3", PMp3); ("wav", PWav); ("wma", PWma); ("m4a", PM4a); ("ogg", POgg)].
(** parts/media.rs:94-102 [MediaPart]; the duration left out. *)
Record mpart := MPart { mp_path : string; mp_number : N; mp_format : mformat; mp_data : string }.
(** parts/media.rs:105-114 [new] *)
Definition mpart_new (n : N) (f : mformat) (data : string) : mpart := MPart ("ppt/media/media" ++ dec n ++ "." ++ mext f) n f data.
(** parts/media.rs:116-129 [from_file]; what the file holds is an argument. *)
Definition mpart_from_file (n : N) (file_path : string) (held : option string) : option mpart :=
  match held with
  | None => None
  | Some data => match path_extension file_path with Some e => match mfrom e with Some f => Some (mpart_new n f data) | None => None end | None => None end
  end.
(** parts/media.rs:161-168 [rel_target], 180-182 [content_type] *)
Definition mpart_target (m : mpart) : string := ("../media/media" ++ dec (mp_number m) ++ "." ++ mext (mp_format m)).
Definition mpart_content (m : mpart) : string := image_content (mext (mp_format m)).
(** parts/image.rs:10-18 [ImagePart]; the dimensions left out. *)
Record ipart := IPart { ip_path : string; ip_number : N; ip_format : string; ip_data : string }.
Definition jpg (f : string) : string := if String.eqb f "jpeg" then "jpg" else f.
(** parts/image.rs:22-37 [new] *)
Definition ipart_new (n : N) (format data : string) : ipart :=
  let f := lowercase format in IPart ("ppt/media/image" ++ dec n ++ "." ++ jpg f) n f data.
(** parts/image.rs:39-49 [from_file] *)
Definition ipart_from_file (n : N) (file_path : string) (held : option string) : option ipart :=
  match held with None => None | Some data => Some (ipart_new n (lowercase (match path_extension file_path with Some e => e | None => "png" end)) data) end.
(** parts/image.rs:82-92 [mime_type], 94-105 [extension], [rel_target], 117-119 [content_type] *)
Definition ipart_mime (i : ipart) : string :=
  match arm (ip_format i) [("png", "image/png"); ("jpg", "image/jpeg"); ("jpeg", "image/jpeg"); ("gif", "image/gif"); ("bmp", "image/bmp"); ("tiff", "image/tiff"); ("tif", "image/tiff")] with
  | Some t => t | None => "application/octet-stream" end.
Definition ipart_target (i : ipart) : string := ("../media/image" ++ dec (ip_number i) ++ "." ++ jpg (ip_format i)).
Definition ipart_content (i : ipart) : string := image_content (ip_format i).
