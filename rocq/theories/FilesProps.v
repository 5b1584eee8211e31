(** C88: bodies made from files. *)
From Verif Require Import Base BaseFacts Utf8 Mime MimeFacts MimeProps Body BodyFacts BodyProps Files.
From Coq Require Import ZifyBool ZifyNat ZifyN.

(** The file delivers what it holds. *)
Definition faithful (w : weather) : Prop := forall c, script_data (deliver w c) = c.
(** The buffer [peek_mime] looks at. *)
Definition looked_at (w : weather) (f : file) : list N :=
  let got := firstn (Nat.min (taken w) 300) (skipn (f_pos f) (f_content f)) in got ++ repeat 0 (300 - length got).

(** Every call that fails is reported with its error, in the order open, metadata, read, seek; otherwise there is a body. *)
Theorem C88_errors : forall info w f name,
  match meta_err w, read_err w, seek_err w with
  | Some e, _, _ | None, Some e, _ | None, None, Some e => from_file_with_path info w f name = inr e
  | None, None, None => exists b, from_file_with_path info w f name = inl b
  end /\
  (forall e, open_err w = Some e -> from_path info w (f_content f) (f_meta f) name = inr e) /\
  (open_err w = None -> from_path info w (f_content f) (f_meta f) name = from_file_with_path info w (File (f_content f) 0 (f_meta f)) name) /\
  from_file info w f = from_file_with_path info w f None.
Proof.
  intros info w f name. unfold from_path, from_file_with_path, peek_mime, fails.
  split; [|split; [intros e ->; reflexivity|split; [intros ->; reflexivity|reflexivity]]].
  destruct (meta_err w), (read_err w), (seek_err w); try reflexivity. eexists. reflexivity.
Qed.
Print Assumptions C88_errors.

(** The body holds the whole file, wherever the cursor stood, up to the length in the metadata, and has that length. *)
Theorem C88_content : forall info w f name b, faithful w -> from_file_with_path info w f name = inl b ->
  holds b (at_most (Some (f_meta f)) (f_content f)) /\ body_len b = Some (f_meta f) /\
  (f_meta f = nlen (f_content f) -> holds b (f_content f)).
Proof.
  intros info w f name b F H. unfold from_file_with_path, peek_mime, fails in H.
  destruct (meta_err w); [discriminate H|]. destruct (read_err w); [discriminate H|]. destruct (seek_err w); [discriminate H|].
  injection H as <-. cbn [f_pos f_content skipn].
  match goal with |- holds (Body _ (Some ?m) _ _) _ /\ _ => set (mm := m) end.
  assert (X : holds (Body (Stream (deliver w (f_content f))) (Some mm) (Some (f_meta f)) 0) (at_most (Some (f_meta f)) (f_content f))).
  { assert (Y := holds_mime _ _ (Some mm) (holds_reader (deliver w (f_content f)) (Some (f_meta f)))). rewrite F in Y. exact Y. }
  split; [exact X|]. split; [reflexivity|]. intros E. cbn [at_most] in X. rewrite firstn_all2 in X by (rewrite E; unfold nlen; lia). exact X.
Qed.
Print Assumptions C88_content.
(** So [into_bytes] gives the content of the file. *)
Theorem C88_into_bytes : forall info w f name b caps r, faithful w -> from_file_with_path info w f name = inl b ->
  f_meta f = nlen (f_content f) -> into_bytes caps b = Some r -> r = Ok (f_content f) \/ r = Err 422 /\ ~ sound b.
Proof. intros info w f name b caps r F H M E. eapply C27_into_bytes_any; [|exact E]. eapply C88_content; eassumption. Qed.
Print Assumptions C88_into_bytes.

(** The type: of what was looked at if that looks like a type that parses, else of the extension, else octet-stream. *)
Theorem C88_type : forall info w f name b, from_file_with_path info w f name = inl b ->
  (forall t m, info (looked_at w f) = Some t -> mime_parse t = Ok m -> body_mime b = Some m) /\
  ((info (looked_at w f) = None \/ exists t, info (looked_at w f) = Some t /\ mime_parse t = Err 500) ->
     (forall n ext m, name = Some n -> extension n = Some ext -> from_extension ext = Some m -> body_mime b = Some m) /\
     ((forall n ext, name = Some n -> extension n = Some ext -> from_extension ext = None) -> body_mime b = Some MIME_BYTE_STREAM)).
Proof.
  intros info w f name b H. unfold from_file_with_path, peek_mime, fails in H.
  destruct (meta_err w); [discriminate H|]. destruct (read_err w); [discriminate H|]. destruct (seek_err w); [discriminate H|].
  cbv zeta in H. change (_ ++ repeat 0 _) with (looked_at w f) in H. injection H as <-. unfold sniff. cbn [body_mime]. split.
  - intros t m -> ->. reflexivity.
  - intros K. assert (E : match (match info (looked_at w f) with Some t => mime_parse t | None => Err 500 end) with Ok m => Some m | _ => None end = None).
    { destruct K as [-> |(t & -> & ->)]; reflexivity. }
    rewrite E. unfold guess_ext. split.
    + intros n ext m -> -> ->. reflexivity.
    + intros G. destruct name as [n|]; [|reflexivity]. specialize (G n). destruct (extension n) as [ext|]; [|reflexivity]. now rewrite (G ext eq_refl eq_refl).
Qed.
Print Assumptions C88_type.

(** File names: the text after the last dot, when something comes before that dot. *)
Theorem C88_extension : forall n,
  (forall a ext, a <> [] -> ~ In 46 ext -> n = a ++ [46] ++ ext -> extension n = Some ext) /\
  (~ In 46 n -> extension n = None) /\
  (forall ext, ~ In 46 ext -> n = 46 :: ext -> extension n = None) /\
  (forall ext, extension n = Some ext -> exists a, a <> [] /\ ~ In 46 ext /\ n = a ++ [46] ++ ext).
Proof.
  assert (Z : forall s, ~ In 46 s -> split 46 s = [s]).
  { intros s N. apply split_no_char. unfold no_char. apply forallb_forall. intros x I. apply negb_true_iff, N.eqb_neq. intros ->. contradiction. }
  assert (S : forall a ext, ~ In 46 ext -> split 46 (a ++ [46] ++ ext) = split 46 a ++ [ext]).
  { intros a ext N. induction a as [|x a IH]; [cbn [app split]; rewrite N.eqb_refl, (Z ext N); reflexivity|].
    cbn [app split] in *. destruct (x =? 46); [now rewrite IH|]. rewrite IH.
    destruct (split 46 a) as [|p ps] eqn:E; [now apply split_nonempty in E|reflexivity]. }
  assert (B : forall a, a <> [] -> rev (split 46 a) <> [[]] /\ rev (split 46 a) <> []).
  { intros a N. split; intros E.
    - apply (f_equal (@rev str)) in E. rewrite rev_involutive in E. cbn [rev app] in E.
      assert (J := split_join_inv 46 a). rewrite E in J. cbn [join] in J. congruence.
    - apply (f_equal (@rev str)) in E. rewrite rev_involutive in E. cbn [rev] in E. exact (split_nonempty 46 a E). }
  assert (L : forall s : str, In 46 s -> exists a ext, s = a ++ [46] ++ ext /\ ~ In 46 ext).
  { intros s. induction s as [|x s IH]; intros I; [destruct I|]. destruct (in_dec N.eq_dec 46 s) as [J|J].
    - destruct (IH J) as (a & ext & -> & N). exists (x :: a), ext. split; [reflexivity|exact N].
    - destruct I as [-> |I]; [|contradiction]. exists [], s. split; [reflexivity|exact J]. }
  intros n. unfold extension. split; [|split; [|split]].
  - intros a ext N D ->. rewrite S by exact D. rewrite rev_app_distr. cbn [rev app]. destruct (B a N) as [B1 B2].
    revert B1 B2. generalize (rev (split 46 a)) as r. intros [|[|x y] [|z t]] B1 B2; try reflexivity; now elim B1 + elim B2.
  - intros D. rewrite (Z n D). reflexivity.
  - intros ext D ->. change (46 :: ext) with ([] ++ [46] ++ ext). rewrite S by exact D. reflexivity.
  - intros ext H. destruct (in_dec N.eq_dec 46 n) as [I|D]; [|rewrite (Z n D) in H; discriminate H].
    destruct (L n I) as (a & e & -> & D). rewrite S in H by exact D. rewrite rev_app_distr in H. cbn [rev app] in H.
    exists a. destruct a as [|x a]; [discriminate H|].
    assert (E : e = ext) by (revert H; generalize (rev (split 46 (x :: a))) as r; intros [|[|p q] [|r t]] H; congruence).
    subst e. split; [discriminate|split; [exact D|reflexivity]].
Qed.
Print Assumptions C88_extension.

(** "The type is sniffed from the file contents": true of a file just opened whose first 300 bytes come in one read,
    provided the sniffer does not mind zeros after a short file. *)
Theorem C88_sniffed_partial : forall info w content meta name b t m,
  from_path info w content meta name = inl b -> (300 <= taken w)%nat ->
  ((300 <= length content)%nat \/ info (content ++ repeat 0 (300 - length content)) = info content) ->
  info (firstn 300 content) = Some t -> mime_parse t = Ok m -> body_mime b = Some m.
Proof.
  intros info w content meta name b t m H T L I P. unfold from_path, fails in H. destruct (open_err w); [discriminate H|].
  apply C88_type in H as [H _]. apply (H t m); [|exact P]. unfold looked_at. cbn [f_pos f_content skipn].
  replace (Nat.min (taken w) 300) with 300%nat by lia.
  destruct L as [L|L].
  - rewrite firstn_length. replace (300 - Nat.min 300 (length content))%nat with O by lia. cbn [repeat]. now rewrite app_nil_r.
  - destruct (Nat.le_gt_cases 300 (length content)) as [G|G].
    + rewrite firstn_length. replace (300 - Nat.min 300 (length content))%nat with O by lia. cbn [repeat]. now rewrite app_nil_r.
    + rewrite firstn_all2 in * by lia. now rewrite L.
Qed.
Print Assumptions C88_sniffed_partial.

(** In general it is false, in three ways.  The sniffer knows the icon format by its first four bytes, and the PDF format
    by its first five. *)
Definition magic (s : list N) (prefix : list N) : bool := seqb (firstn (length prefix) s) prefix.
Definition some_formats (s : list N) : option str :=
  if magic s [0; 0; 1; 0] then Some (lit "image/vnd.microsoft.icon")
  else if magic s (lit "%PDF-") then Some (lit "application/pdf") else None.
Definition calm (n : nat) : weather := Weather None None None None n chunk.
(** A three-byte text file is taken for an icon, because the unused buffer is looked at too. *)
Theorem C88_padding_refuted : exists content b m, some_formats content = None /\
  from_path some_formats (calm 300) content (nlen content) (Some (lit "a.txt")) = inl b /\
  mime_parse (lit "image/vnd.microsoft.icon") = Ok m /\ body_mime b = Some m.
Proof.
  destruct (mime_parse (lit "image/vnd.microsoft.icon")) as [m| |] eqn:E; try (vm_compute in E; discriminate E).
  exists [0; 0; 1]. eexists. exists m. inv E. split; [reflexivity|]. split; [vm_compute; reflexivity|]. split; reflexivity.
Qed.
Print Assumptions C88_padding_refuted.
(** An open file that has been read from is sniffed from where it stands, and yet sent from its start. *)
Theorem C88_cursor_refuted : exists f b, some_formats (f_content f) = Some (lit "application/pdf") /\
  from_file some_formats (calm 300) f = inl b /\ body_mime b = Some MIME_BYTE_STREAM /\ holds b (f_content f).
Proof.
  exists (File (lit "%PDF-1.7") 5 8). eexists. split; [reflexivity|]. split; [vm_compute; reflexivity|]. split; [reflexivity|].
  eapply C88_content with (info := some_formats) (w := calm 300) (f := File (lit "%PDF-1.7") 5 8) (name := None); [| |reflexivity].
  - intros c. rewrite script_data_data. apply data_chunk.
  - vm_compute. reflexivity.
Qed.
Print Assumptions C88_cursor_refuted.
(** A read may give fewer bytes than asked for. *)
Theorem C88_short_read_refuted : exists content b, some_formats content = Some (lit "application/pdf") /\
  from_path some_formats (calm 3) content (nlen content) None = inl b /\ body_mime b = Some MIME_BYTE_STREAM.
Proof. exists (lit "%PDF-1.7"). eexists. split; [reflexivity|]. split; [vm_compute; reflexivity|reflexivity]. Qed.
Print Assumptions C88_short_read_refuted.
(** Files whose metadata says 0 (as under /proc) make empty bodies. *)
Theorem C88_metadata_refuted : exists content b, content <> [] /\ from_path some_formats (calm 300) content 0 None = inl b /\ holds b [].
Proof.
  exists (lit "data"). eexists. split; [discriminate|]. split; [vm_compute; reflexivity|].
  eapply C88_content with (info := some_formats) (w := calm 300) (f := File (lit "data") 0 0) (name := None); [|vm_compute; reflexivity].
  intros c. rewrite script_data_data. apply data_chunk.
Qed.
Print Assumptions C88_metadata_refuted.

Example C88_sniffed_partial_case : exists b m, from_path some_formats (calm 300) (lit "%PDF-1.7 and so on") 18 (Some (lit "a.txt")) = inl b /\
  some_formats (lit "%PDF-1.7 and so on" ++ repeat 0 282) = some_formats (lit "%PDF-1.7 and so on") /\ mime_parse (lit "application/pdf") = Ok m /\ body_mime b = Some m.
Proof. eexists. eexists. split; [vm_compute; reflexivity|]. split; [vm_compute; reflexivity|]. split; vm_compute; reflexivity. Qed.
Example C88_example :
  let b n := from_path some_formats (calm 300) (lit "<p>") 3 (Some (lit n)) in
  match b "a.b.html"%string, b ".html"%string, b "page.HTML"%string with
  | inl x, inl y, inl z => (body_mime x, body_mime y, body_mime z, into_bytes [9%nat; 9%nat] x) =
      (Some MIME_HTML, Some MIME_BYTE_STREAM, Some MIME_BYTE_STREAM, Some (Ok (lit "<p>")))
  | _, _, _ => False
  end.
Proof. vm_compute. reflexivity. Qed.
