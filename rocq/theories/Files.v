(** Bodies made from files: src/body.rs:362-455, 615-635, and Mime::sniff (src/mime/mod.rs:44-51).

    The file system is a parameter: what the file holds, where its cursor stands, what its metadata says, and how each
    call turns out.  Simplified: the metadata call, the first read, the seek and the later reads see the same content. *)
From Verif Require Import Base Mime Body.

(** [async_std::fs::File] (async-std): content, cursor, and the length in its metadata. *)
Record file : Type := File { f_content : list N; f_pos : nat; f_meta : N }.
(** How the calls turn out: an error number for each that fails, how many bytes the one read of [peek_mime] gives at
    most, and how the file is delivered when it is read as a body. *)
Record weather : Type := Weather {
  open_err : option N; meta_err : option N; read_err : option N; seek_err : option N;
  taken : nat; deliver : list N -> list event }.

Section Files.
  (** [infer::Infer::get] and [Type::mime_type] (infer crate): the type a buffer looks like. *)
  Context (info : list N -> option str).

  (** src/mime/mod.rs:44-51; [bail!] gives 500. *)
  Definition sniff (bytes : list N) : outcome mime :=
    match info bytes with Some t => mime_parse t | None => Err 500 end.

  (** The result of an I/O operation: [inr] is an [io::Error]. *)
  Definition io (A : Type) : Type := (A + N)%type.
  Definition fails {A} (e : option N) (k : io A) : io A := match e with Some e => inr e | None => k end.

  (** src/body.rs:618-627: one [read] into a zeroed buffer of 300 bytes, all of which is looked at; then the cursor goes to
      the start. *)
  Definition peek_mime (w : weather) (f : file) : io (option mime * file) :=
    fails (read_err w)
      (let got := firstn (Nat.min (taken w) 300) (skipn (f_pos f) (f_content f)) in
       let buf := got ++ repeat 0 (300 - length got) in
       let m := match sniff buf with Ok m => Some m | _ => None end in
       fails (seek_err w) (inl (m, File (f_content f) 0 (f_meta f)))).

  (** [std::path::Path::extension] (std) of a file name: what follows the last dot, unless that dot comes first. *)
  Definition extension (name : str) : option str :=
    match rev (split 46 name) with
    | ext :: before => match before with [] | [[]] => None | _ => Some ext end
    | [] => None
    end.
  (** src/body.rs:632-635; the path is given by its file name, if it has one ([""] and [".."] do not). *)
  Definition guess_ext (name : option str) : option mime :=
    match name with Some n => match extension n with Some e => from_extension e | None => None end | None => None end.

  (** src/body.rs:433-452 *)
  Definition from_file_with_path (w : weather) (f : file) (name : option str) : io body :=
    fails (meta_err w)
      (match peek_mime w f with
       | inr e => inr e
       | inl (m, f') =>
           let m := match m with Some m => m | None => match guess_ext name with Some m => m | None => MIME_BYTE_STREAM end end in
           inl (Body (Stream (deliver w (skipn (f_pos f') (f_content f')))) (Some m) (Some (f_meta f)) 0)
       end).
  (** src/body.rs:407-409 *)
  Definition from_file (w : weather) (f : file) : io body := from_file_with_path w f None.
  (** src/body.rs:379-386: a file just opened stands at its start. *)
  Definition from_path (w : weather) (content : list N) (meta : N) (name : option str) : io body :=
    fails (open_err w) (from_file_with_path w (File content 0 meta) name).
End Files.
