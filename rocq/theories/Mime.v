(** Model of src/mime: parse.rs, mod.rs, constants.rs. *)
From Verif Require Import Base.

(** src/mime/mod.rs:32-40 *)
Record mime : Type := mkMime {
  essence : str;
  basetype : str;
  subtype : str;
  is_utf8 : bool;
  params : list (str * str)
}.

(** ** src/mime/parse.rs *)

(** src/mime/parse.rs:122-142, in the order of the source *)
Definition is_token_cp (c : N) : bool :=
  existsb (N.eqb c) [33; 35; 36; 37; 38; 39; 42; 43; 45; 46; 94; 95; 96; 124; 126]
  || is_lower c || is_upper c || is_digit c.
(** src/mime/parse.rs:145-147 *)
Definition is_qs_cp (c : N) : bool :=
  (c =? 9) || ((32 <=? c) && (c <=? 126)) || ((128 <=? c) && (c <=? 255)).
(** src/mime/parse.rs:150-152 *)
Definition is_http_ws (c : N) : bool := (c =? 10) || (c =? 13) || (c =? 9) || (c =? 32).
(** src/mime/parse.rs:155-157: split before the first delimiter, or at the end. *)
Definition collect_until (stop : N -> bool) (s : str) : str * str :=
  (take_while (fun c => negb (stop c)) s, drop_while (fun c => negb (stop c)) s).
(** [&input[1..]]: panics on the empty string and inside a multi-byte character.  src/mime/parse.rs:54, 71, 168. *)
Definition slice1 (s : str) : outcome str :=
  match s with
  | c :: s' => if c <? 128 then Ok s' else Panic
  | [] => Panic
  end.
(** src/mime/parse.rs:173-204, the loop of [collect_http_quoted_string]; the source copies whole runs of ordinary
    characters at once, here they are copied one by one.  Returns (value, rest). *)
Fixpoint quoted_loop (s : str) (value : str) : str * str :=
  match s with
  | [] => (value, [])
  | c :: s' =>
      if c =? 34 then (value, s')
      else if c =? 92 then
        match s' with
        | c' :: s'' => quoted_loop s'' (value ++ [c'])
        | [] => (value ++ [92], [])
        end
      else quoted_loop s' (value ++ [c])
  end.
(** src/mime/parse.rs:167-171 *)
Definition collect_quoted (s : str) : outcome (str * str) :=
  let* s' := slice1 s in Ok (quoted_loop s' []).

(** src/mime/parse.rs:95-109, step 10 of the loop body. *)
Definition push_param (name value : str) (st : bool * list (str * str)) : bool * list (str * str) :=
  let '(utf8, ps) := st in
  if seqb name (lit "charset") && seqb value (lit "utf-8") then (true, ps)
  else if negb (match name with [] => true | _ => false end)
          && forallb is_token_cp name && forallb is_qs_cp value then
    if existsb (fun p => seqb (fst p) name) ps then (utf8, ps) else (utf8, ps ++ [(name, value)])
  else (utf8, ps).

(** src/mime/parse.rs:48-110, the [while] loop.  Out of fuel is [Panic]; MimeFacts.v shows it is not reached. *)
Fixpoint parse_params (fuel : nat) (input : str) (st : bool * list (str * str))
  : outcome (bool * list (str * str)) :=
  match fuel with
  | O => Panic
  | S f =>
    match input with
    | [] => Ok st
    | _ =>
      let* input := slice1 input in
      let input := trim_start_matches is_http_ws input in
      let '(name, input) := collect_until (fun c => (c =? 59) || (c =? 61)) input in
      let name := to_lower name in
      match input with
      | [] => Ok st
      | c :: _ =>
        if c =? 59 then parse_params f input st
        else
          let* input := slice1 input in
          if starts_with [34] input then
            let* vi := collect_quoted input in
            let '(value, input) := vi in
            let '(_, input) := collect_until (N.eqb 59) input in
            parse_params f input (push_param name value st)
          else
            let '(value, input) := collect_until (N.eqb 59) input in
            let value := trim_end_matches is_http_ws value in
            match value with
            | [] => parse_params f input st
            | _ => parse_params f input (push_param name value st)
            end
      end
    end
  end.

(** src/mime/parse.rs:8-119; every failure is [ensure!], status 500. *)
Definition mime_parse (input : str) : outcome mime :=
  let input := trim_matches is_http_ws input in
  let '(base, input) := collect_until (N.eqb 47) input in
  if negb (match base with [] => false | _ => true end) then Err 500 else
  if negb (forallb is_token_cp base) then Err 500 else
  match input with
  | [] => Err 500
  | _ =>
    let* input := slice1 input in
    let '(sub, input) := collect_until (N.eqb 59) input in
    let sub := trim_end_matches is_http_ws sub in
    if negb (match sub with [] => false | _ => true end) then Err 500 else
    if negb (forallb is_token_cp sub) then Err 500 else
    let base := to_lower base in
    let sub := to_lower sub in
    let* st := parse_params (S (length input)) input (false, []) in
    Ok (mkMime (base ++ [47] ++ sub) base sub (fst st) (snd st))
  end.

(** src/mime/parse.rs:217-224, 231-271: backslash before quote and backslash. *)
Definition escape_value (v : str) : str :=
  flat_map (fun c => if (c =? 34) || (c =? 92) then [92; c] else [c]) v.
(** src/mime/parse.rs:213-227, one parameter *)
Definition format_param (name value : str) : str :=
  if forallb is_token_cp value && negb (match value with [] => true | _ => false end)
  then [59] ++ name ++ [61] ++ value
  else [59] ++ name ++ [61; 34] ++ escape_value value ++ [34].
(** src/mime/parse.rs:208-229 *)
Definition mime_format (m : mime) : str :=
  essence m ++ (if is_utf8 m then lit ";charset=utf-8" else [])
  ++ flat_map (fun p => format_param (fst p) (snd p)) (params m).

(** ** src/mime/mod.rs *)

(** src/mime/mod.rs:227-237 [ParamName] from text; [From<&str>] unwraps. *)
Definition param_name (s : str) : outcome str := if is_ascii s then Ok (to_lower s) else Panic.

(** [iter().find] at src/mime/mod.rs:113. *)
Fixpoint find_param (ps : list (str * str)) (n : str) : option str :=
  match ps with
  | [] => None
  | (k, v) :: ps' => if seqb k n then Some v else find_param ps' n
  end.
(** [position] and [remove] at src/mime/mod.rs:123-126. *)
Fixpoint remove_first (ps : list (str * str)) (n : str) : list (str * str) :=
  match ps with
  | [] => []
  | (k, v) :: ps' => if seqb k n then ps' else (k, v) :: remove_first ps' n
  end.
(** src/mime/mod.rs:107-114, the name already a [ParamName]. *)
Definition get_param (m : mime) (n : str) : option str :=
  if seqb n (lit "charset") && is_utf8 m then Some (lit "utf-8") else find_param (params m) n.
(** src/mime/mod.rs:107-114. *)
Definition param (m : mime) (s : str) : outcome (option str) :=
  let* n := param_name s in Ok (get_param m n).
(** src/mime/mod.rs:117-127 *)
Definition remove_param (m : mime) (s : str) : outcome (option str * mime) :=
  let* n := param_name s in
  if seqb n (lit "charset") && is_utf8 m
  then Ok (Some (lit "utf-8"), mkMime (essence m) (basetype m) (subtype m) false (params m))
  else Ok (find_param (params m) n,
           mkMime (essence m) (basetype m) (subtype m) (is_utf8 m) (remove_first (params m) n)).
(** src/mime/mod.rs:149-166 *)
Definition subset_eq (self other : mime) : bool :=
  if negb (seqb (basetype other) [42]) && negb (seqb (basetype self) (basetype other)) then false
  else if negb (seqb (subtype other) [42]) && negb (seqb (subtype self) (subtype other)) then false
  else forallb (fun p => match get_param self (fst p) with Some v => seqb v (snd p) | None => false end)
         (params other).

(** src/headers/header_value.rs:51-57, 68-74 [From<Mime>]: the text, not checked for ASCII; also
    [ToHeaderValues for Mime], src/mime/mod.rs:198-208. *)
Definition mime_header_value (m : mime) : str := mime_format m.

(** ** src/mime/constants.rs:20-104 *)
Definition mime_const (base sub : string) (utf8 : bool) : mime :=
  mkMime (lit base ++ [47] ++ lit sub) (lit base) (lit sub) utf8 [].
(** src/mime/constants.rs:55 *)
Definition MIME_JAVASCRIPT := mime_const "text" "javascript" true.
(** src/mime/constants.rs:56 *)
Definition MIME_CSS := mime_const "text" "css" true.
(** src/mime/constants.rs:57 *)
Definition MIME_HTML := mime_const "text" "html" true.
(** src/mime/constants.rs:58 *)
Definition MIME_PLAIN := mime_const "text" "plain" true.
(** src/mime/constants.rs:59 *)
Definition MIME_XML := mime_const "application" "xml" true.
(** src/mime/constants.rs:60 *)
Definition MIME_RSS := mime_const "application" "rss+xml" true.
(** src/mime/constants.rs:61 *)
Definition MIME_ATOM := mime_const "application" "atom+xml" true.
(** src/mime/constants.rs:62 *)
Definition MIME_ANY := mime_const "*" "*" false.
(** src/mime/constants.rs:63 *)
Definition MIME_JSON := mime_const "application" "json" false.
(** src/mime/constants.rs:64 *)
Definition MIME_SSE := mime_const "text" "event-stream" false.
(** src/mime/constants.rs:65 *)
Definition MIME_BYTE_STREAM := mime_const "application" "octet-stream" false.
(** src/mime/constants.rs:66 *)
Definition MIME_FORM := mime_const "application" "x-www-form-urlencoded" false.
(** src/mime/constants.rs:67 *)
Definition MIME_MULTIPART_FORM := mime_const "multipart" "form-data" false.
(** src/mime/constants.rs:68 *)
Definition MIME_WASM := mime_const "application" "wasm" false.
(** src/mime/constants.rs:72 *)
Definition MIME_BMP := mime_const "image" "bmp" false.
(** src/mime/constants.rs:73 *)
Definition MIME_JPEG := mime_const "image" "jpeg" false.
(** src/mime/constants.rs:74 *)
Definition MIME_PNG := mime_const "image" "png" false.
(** src/mime/constants.rs:75 *)
Definition MIME_SVG := mime_const "image" "svg+xml" false.
(** src/mime/constants.rs:76 *)
Definition MIME_WEBP := mime_const "image" "webp" false.
(** src/mime/constants.rs:80 *)
Definition MIME_MIDI := mime_const "audio" "midi" false.
(** src/mime/constants.rs:81 *)
Definition MIME_MP3 := mime_const "audio" "mpeg" false.
(** src/mime/constants.rs:82 *)
Definition MIME_OGG := mime_const "audio" "ogg" false.
(** src/mime/constants.rs:83 *)
Definition MIME_OPUS := mime_const "audio" "opus" false.
(** src/mime/constants.rs:84 *)
Definition MIME_M4A := mime_const "audio" "mp4" false.
(** src/mime/constants.rs:88 *)
Definition MIME_MP4 := mime_const "video" "mp4" false.
(** src/mime/constants.rs:89 *)
Definition MIME_MPEG := mime_const "video" "mpeg" false.
(** src/mime/constants.rs:90 *)
Definition MIME_WEBM := mime_const "video" "webm" false.
(** src/mime/constants.rs:91 *)
Definition MIME_AVI := mime_const "video" "x-msvideo" false.
(** src/mime/constants.rs:95 *)
Definition MIME_ICO := mime_const "image" "x-icon" false.
(** src/mime/constants.rs:99 *)
Definition MIME_OTF := mime_const "font" "otf" false.
(** src/mime/constants.rs:100 *)
Definition MIME_TTF := mime_const "font" "ttf" false.
(** src/mime/constants.rs:101 *)
Definition MIME_WOFF := mime_const "font" "woff" false.
(** src/mime/constants.rs:102 *)
Definition MIME_WOFF2 := mime_const "font" "woff2" false.
(** src/mime/constants.rs:105 *)
Definition MIME_ZIP := mime_const "application" "zip" false.
(** src/mime/constants.rs:106 *)
Definition MIME_SEVENZIP := mime_const "application" "x-7z-compressed" false.
(** src/mime/constants.rs:55-106, all of them. *)
Definition mime_constants : list mime :=
  [MIME_JAVASCRIPT; MIME_CSS; MIME_HTML; MIME_PLAIN; MIME_XML; MIME_RSS; MIME_ATOM; MIME_ANY; MIME_JSON; MIME_SSE; MIME_BYTE_STREAM; MIME_FORM; MIME_MULTIPART_FORM; MIME_WASM; MIME_BMP; MIME_JPEG; MIME_PNG; MIME_SVG; MIME_WEBP; MIME_MIDI; MIME_MP3; MIME_OGG; MIME_OPUS; MIME_M4A; MIME_MP4; MIME_MPEG; MIME_WEBM; MIME_AVI; MIME_ICO; MIME_OTF; MIME_TTF; MIME_WOFF; MIME_WOFF2; MIME_ZIP; MIME_SEVENZIP].

(** src/mime/mod.rs:54-86 *)
Definition extension_table : list (string * mime) :=
  [("7z"%string, MIME_SEVENZIP);
   ("atom"%string, MIME_ATOM);
   ("avi"%string, MIME_AVI);
   ("bin"%string, MIME_BYTE_STREAM);
   ("exe"%string, MIME_BYTE_STREAM);
   ("dll"%string, MIME_BYTE_STREAM);
   ("iso"%string, MIME_BYTE_STREAM);
   ("img"%string, MIME_BYTE_STREAM);
   ("bmp"%string, MIME_BMP);
   ("css"%string, MIME_CSS);
   ("html"%string, MIME_HTML);
   ("ico"%string, MIME_ICO);
   ("js"%string, MIME_JAVASCRIPT);
   ("mjs"%string, MIME_JAVASCRIPT);
   ("jsonp"%string, MIME_JAVASCRIPT);
   ("json"%string, MIME_JSON);
   ("m4a"%string, MIME_M4A);
   ("mid"%string, MIME_MIDI);
   ("midi"%string, MIME_MIDI);
   ("kar"%string, MIME_MIDI);
   ("mp3"%string, MIME_MP3);
   ("mp4"%string, MIME_MP4);
   ("mpeg"%string, MIME_MPEG);
   ("mpg"%string, MIME_MPEG);
   ("ogg"%string, MIME_OGG);
   ("otf"%string, MIME_OTF);
   ("rss"%string, MIME_RSS);
   ("svg"%string, MIME_SVG);
   ("svgz"%string, MIME_SVG);
   ("ttf"%string, MIME_TTF);
   ("txt"%string, MIME_PLAIN);
   ("wasm"%string, MIME_WASM);
   ("webm"%string, MIME_WEBM);
   ("webp"%string, MIME_WEBP);
   ("woff"%string, MIME_WOFF);
   ("woff2"%string, MIME_WOFF2);
   ("xml"%string, MIME_XML);
   ("zip"%string, MIME_ZIP)].
(** The [match] of src/mime/mod.rs:54-86. *)
Fixpoint lookup_ext (t : list (string * mime)) (s : str) : option mime :=
  match t with
  | [] => None
  | (k, m) :: t' => if seqb s (lit k) then Some m else lookup_ext t' s
  end.
(** src/mime/mod.rs:54-86. *)
Definition from_extension (s : str) : option mime := lookup_ext extension_table s.
