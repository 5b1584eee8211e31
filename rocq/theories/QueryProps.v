(** Property C90: queries, structured bodies and buffered reading of messages. *)
From Verif Require Import Base BaseFacts Method Headers HeadersFacts HeadersProps Mime MimeFacts Utf8 Body BodyFacts BodyProps Message MessageProps MessageOps Query.
From Coq Require Import ZifyBool ZifyNat ZifyN.

(** ** Queries *)
Section Queries.
Context {V T : Type} (enc : str -> str) (to_qs : T -> option str) (from_qs : str -> option T).

(** The parts of a URL's text, as the URL standard orders them. *)
Definition text_of_parts (base : str) (q f : option str) : str :=
  base ++ match q with Some q => 63 :: q | None => [] end ++ match f with Some f => 35 :: f | None => [] end.

Lemma no_char_app : forall d a b, no_char d (a ++ b) = no_char d a && no_char d b.
Proof. intros d a b. unfold no_char. apply forallb_app. Qed.

Lemma parts_read : forall base q f h, no_char 63 base = true -> no_char 35 base = true ->
  match q with Some q => no_char 35 q = true | None => True end ->
  let u := mkUrl (text_of_parts base q f) h in url_base u = base /\ url_query u = q /\ url_fragment u = f.
Proof.
  intros base q f h B1 B2 Q. unfold url_base, url_query, url_fragment, cut, text_of_parts. cbn [url_text].
  set (m := match q with Some q => 63 :: q | None => [] end).
  assert (M : no_char 35 (base ++ m) = true).
  { rewrite no_char_app, B2. unfold m. destruct q; [exact Q|reflexivity]. }
  assert (C : split_once 63 (base ++ m) = match q with Some q => Some (base, q) | None => None end /\ (q = None -> base ++ m = base)).
  { unfold m. destruct q as [q|]; [split; [apply split_once_app, B1|discriminate]|]. rewrite app_nil_r. split; [apply split_once_none, B1|auto]. }
  destruct C as [C D]. rewrite app_assoc. destruct f as [f|].
  - rewrite split_once_app by exact M. cbn [fst snd]. rewrite C. destruct q; cbn [fst snd]; auto.
  - rewrite app_nil_r. assert (Z := proj2 (split_once_none 35 (base ++ m)) M). rewrite Z. cbn [fst snd]. rewrite C. destruct q; cbn [fst snd]; auto.
Qed.

Lemma parts_exist : forall u, exists base q f, url_text u = text_of_parts base q f /\ no_char 63 base = true /\ no_char 35 base = true /\
  match q with Some q => no_char 35 q = true | None => True end.
Proof.
  intros [t h]. cbn [url_text]. destruct (split_once 35 t) as [[a f]|] eqn:E.
  - apply split_once_some in E as [-> A]. destruct (split_once 63 a) as [[b q]|] eqn:F.
    + apply split_once_some in F as [-> B]. exists b, (Some q), (Some f). unfold text_of_parts. rewrite no_char_app in A.
      apply andb_prop in A as [A1 A2]. rewrite <- app_assoc. auto.
    + exists a, None, (Some f). apply split_once_none in F. auto.
  - apply split_once_none in E. destruct (split_once 63 t) as [[b q]|] eqn:F.
    + apply split_once_some in F as [-> B]. exists b, (Some q), None. unfold text_of_parts. rewrite app_nil_r. rewrite no_char_app in E.
      apply andb_prop in E as [A1 A2]. auto.
    + exists t, None, None. apply split_once_none in F. unfold text_of_parts. rewrite !app_nil_r. auto.
Qed.

(** Every URL is a base, perhaps a query, perhaps a fragment; setting the query replaces just that part of the
    text, and everything else of the request stays. *)
Theorem C90_set_query : forall (r : request V) t s base q f, url_text (rq_url r) = text_of_parts base q f ->
  no_char 63 base = true -> no_char 35 base = true -> match q with Some q => no_char 35 q = true | None => True end ->
  to_qs t = Some s -> no_char 35 (enc s) = true ->
  exists r', set_query enc to_qs r t = (r', Ok tt) /\
    url_text (rq_url r') = text_of_parts base (Some (enc s)) f /\ url_query (rq_url r') = Some (enc s) /\ url_host (rq_url r') = url_host (rq_url r) /\
    rq_method r' = rq_method r /\ rq_common r' = rq_common r /\ rq_trailers r' = rq_trailers r /\
    query from_qs r' = match from_qs (enc s) with Some t' => Ok t' | None => Err 400 end.
Proof.
  intros [m [t h] c e] v s base q f E B1 B2 Q S N. cbn [rq_url url_text] in E. subst t.
  destruct (parts_read base q f h B1 B2 Q) as (P1 & P2 & P3).
  unfold set_query. rewrite S. eexists. split; [reflexivity|]. unfold set_url, url_set_query, query. cbn [rq_url rq_method rq_common rq_trailers url_host].
  rewrite P1, P3. cbn [with_mark]. change (base ++ (63 :: enc s) ++ with_mark 35 f) with (text_of_parts base (Some (enc s)) f).
  destruct (parts_read base (Some (enc s)) f h B1 B2 N) as (R1 & R2 & R3). rewrite R2. repeat apply conj; try reflexivity.
Qed.

(** What is set is what is read, if serde_qs reads back what it writes and the text needs no encoding. *)
Theorem C90_query_round_trip : forall (r : request V) t s, to_qs t = Some s -> enc s = s -> no_char 35 s = true -> from_qs s = Some t ->
  query from_qs (fst (set_query enc to_qs r t)) = Ok t.
Proof.
  intros r t s S E N F. destruct (parts_exist (rq_url r)) as (base & q & f & P & B1 & B2 & Q).
  destruct (C90_set_query r t s base q f P B1 B2 Q S) as (r' & R & _ & _ & _ & _ & _ & _ & Z); [rewrite E; exact N|].
  rewrite R. cbn [fst]. rewrite Z, E, F. reflexivity.
Qed.

(** The last query set wins; a value that cannot be written changes nothing and is a 400. *)
Theorem C90_query_overwritten : forall (r : request V) t1 t2 s1, to_qs t1 = Some s1 -> no_char 35 (enc s1) = true ->
  set_query enc to_qs (fst (set_query enc to_qs r t1)) t2 =
  match to_qs t2 with Some _ => set_query enc to_qs r t2 | None => (fst (set_query enc to_qs r t1), Err 400) end.
Proof.
  intros r t1 t2 s1 S N. destruct (to_qs t2) as [s2|] eqn:S2; [|unfold set_query at 1; rewrite S2; reflexivity].
  unfold set_query. rewrite S, S2. cbn [fst]. f_equal. destruct r as [m [t h] c e].
  destruct (parts_exist (mkUrl t h)) as (base & q & f & P & B1 & B2 & Q). cbn [url_text] in P. subst t.
  unfold set_url, url_set_query. cbn [rq_url rq_method rq_common rq_trailers url_host].
  destruct (parts_read base q f h B1 B2 Q) as (P1 & P2 & P3). rewrite P1, P3.
  cbn [with_mark]. change (base ++ (63 :: enc s1) ++ with_mark 35 f) with (text_of_parts base (Some (enc s1)) f).
  destruct (parts_read base (Some (enc s1)) f h B1 B2 N) as (R1 & R2 & R3). rewrite R1, R3. reflexivity.
Qed.
Theorem C90_query_refused : forall (r : request V) t, to_qs t = None -> set_query enc to_qs r t = (r, Err 400).
Proof. intros r t H. unfold set_query. rewrite H. reflexivity. Qed.

(** A URL without a query reads like one with an empty query; the fragment never matters; a query that does
    not parse is a 400. *)
Theorem C90_query_read : forall m h (c : common V) e base q f, no_char 63 base = true -> no_char 35 base = true ->
  match q with Some q => no_char 35 q = true | None => True end ->
  query from_qs (mkRequest m (mkUrl (text_of_parts base q f) h) c e) =
  match from_qs (match q with Some q => q | None => [] end) with Some t => Ok t | None => Err 400 end.
Proof.
  intros m h c e base q f B1 B2 Q. unfold query. cbn [rq_url]. destruct (parts_read base q f h B1 B2 Q) as (_ & -> & _).
  destruct (from_qs _); reflexivity.
Qed.
End Queries.
Print Assumptions C90_set_query.
Example C90_set_query_case : text_of_parts (lit "https://a.b/c") (Some (lit "old")) (Some (lit "top?x")) = lit "https://a.b/c?old#top?x" /\
  no_char 63 (lit "https://a.b/c") = true /\ no_char 35 (lit "https://a.b/c") = true /\ no_char 35 (lit "old") = true.
Proof. repeat split. Qed.
Print Assumptions C90_query_round_trip.
Print Assumptions C90_query_overwritten.
Print Assumptions C90_query_refused.
Print Assumptions C90_query_read.

Example C90_query_example :
  let to_qs (n : N) := if n <? 100 then Some (lit "page=" ++ show_dec n) else None in
  let from_qs (s : str) := match split_once 61 s with Some (k, v) => if seqb k (lit "page") then parse_uint 10 99 v else None | None => None end in
  let r := mkRequest M_Get (mkUrl (lit "https://a.b/c?old#top?x") (Some (lit "a.b"))) (common_new (V := unit)) (mkEnds None None false) in
  let '(r', res) := set_query (fun s => s) to_qs r 42 in
  (url_text (rq_url r'), res, query from_qs r', query from_qs r, snd (set_query (fun s => s) to_qs r 100)) =
  (lit "https://a.b/c?page=42#top?x", Ok tt, Ok 42, Err 400, Err 400).
Proof. vm_compute. reflexivity. Qed.

(** ** JSON and form bodies of messages *)
Section Structured.
Context {V T : Type} (to_json : T -> option (list N)) (parse_json : list N -> option T)
  (to_form : T -> option str) (parse_form : str -> option T).

Definition type_after (c : common V) (m : option mime) : option header_values :=
  match h_get (c_headers c) (lit "content-type") with Some vs => Some vs | None => option_map (fun m => [mime_format m]) m end.
Lemma put_headers : forall (c : common V) b,
  h_get (c_headers (set_body c b)) (lit "content-type") = type_after c (body_mime b) /\
  forall n, n <> lit "content-type" -> h_get (c_headers (set_body c b)) n = h_get (c_headers c) n.
Proof.
  intros c b. split; [|intros n Hn; apply C29_other_headers_kept, Hn]. unfold type_after.
  destruct (h_get (c_headers c) (lit "content-type")) as [vs|] eqn:E.
  - rewrite (C29_content_type_kept_if_present c b vs E). exact E.
  - apply C29_content_type_set_if_absent, E.
Qed.
Lemma take_parts : forall (c : common V), fst (take_body c) = c_body c /\ c_body (snd (take_body c)) = body_empty /\ snd (take_body c) = set_body c body_empty.
Proof.
  intros c. destruct (C29_bodies_exchanged c body_empty) as (_ & _ & _ & _ & T1 & T2 & _). auto.
Qed.


(** What taking the body leaves: an empty body, and every header as it was; a missing Content-Type becomes that
    of the empty body. *)
Definition emptied (c c' : common V) : Prop :=
  c_body c' = body_empty /\ h_get (c_headers c') (lit "content-type") = type_after c (Some MIME_BYTE_STREAM) /\
  (forall n, n <> lit "content-type" -> h_get (c_headers c') n = h_get (c_headers c) n) /\
  c_version c' = c_version c /\ c_ext c' = c_ext c /\ c_peer c' = c_peer c /\ c_local c' = c_local c.
Lemma take_emptied : forall c : common V, exists c', take_body c = (c_body c, c') /\ emptied c c'.
Proof.
  intros c. destruct (take_parts c) as (A & B & C). destruct (take_body c) as [b c']. cbn [fst snd] in *. subst b. exists c'. split; [reflexivity|].
  destruct (put_headers c body_empty) as [H1 H2]. destruct (C29_bodies_exchanged c body_empty) as (_ & _ & _ & _ & _ & _ & X1 & X2 & X3 & X4).
  rewrite <- C in *. unfold emptied. repeat apply conj; auto.
Qed.

(** Any message: the content parsed; 422 if it does not parse, 500 if the reader failed. *)
Theorem C90_json_any : forall (c : common V) content caps r c', holds (c_body c) content -> body_json parse_json caps c = (Some r, c') ->
  emptied c c' /\ (r = match parse_json content with Some v => Ok v | None => Err 422 end \/ (r = Err 500 /\ ~ sound (c_body c))).
Proof.
  intros c content caps r c' H E. unfold body_json in E. destruct (take_emptied c) as (c1 & TE & M). rewrite TE in E. inv E. split; [exact M|].
  match goal with X : into_json _ _ _ = _ |- _ => unfold into_json in X; destruct (read_to_end caps (c_body c) []) as [x|] eqn:R; [|discriminate X]; inv X end.
  apply holds_rest in H as [W <-]. apply read_to_end_spec in R; [|exact W]. destruct R as [-> | [-> F]]; [left|right; auto].
  cbn [bind app]. destruct (parse_json (rest (c_body c))); reflexivity.
Qed.
Theorem C90_form_any : forall (c : common V) content caps r c', holds (c_body c) content -> (forall l, body_len (c_body c) = Some l -> l <= 2 ^ 63 - 1) ->
  body_form parse_form caps c = (Some r, c') ->
  emptied c c' /\ ((exists s, utf8_encode s = content /\ valid_str s = true /\ r = match parse_form s with Some v => Ok v | None => Err 422 end) \/ r = Err 422).
Proof.
  intros c content caps r c' H L E. unfold body_form in E. destruct (take_emptied c) as (c1 & TE & M). rewrite TE in E. inv E. split; [exact M|].
  match goal with X : into_form _ _ _ = _ |- _ => unfold into_form in X; destruct (into_string caps (c_body c)) as [x|] eqn:R; [|discriminate X]; inv X end.
  destruct (C27_into_string_any _ _ _ _ H L R) as [(s & -> & S1 & S2)| ->]; [left|right; reflexivity].
  exists s. cbn [bind]. destruct (parse_form s); auto.
Qed.

Lemma read_empty : forall n caps, read_to_end (n :: caps) body_empty [] = Some (Ok []).
Proof. reflexivity. Qed.

(** A value put in comes out again, whatever was there before; reading again then parses the empty text. *)
Theorem C90_json : forall (c : common V) v bs caps, to_json v = Some bs -> parse_json bs = Some v -> (length bs < length caps)%nat ->
  exists b c', from_json to_json v = Ok b /\ body_json parse_json caps (set_body c b) = (Some (Ok v), c') /\
    c_body c' = body_empty /\ h_get (c_headers c') (lit "content-type") = type_after c (Some MIME_JSON) /\
    (forall n, n <> lit "content-type" -> h_get (c_headers c') n = h_get (c_headers c) n) /\
    (forall n caps2, fst (body_json parse_json (n :: caps2) c') = Some (match parse_json [] with Some v' => Ok v' | None => Err 422 end)).
Proof.
  intros c v bs caps J P L. unfold from_json. rewrite J. cbn [ok_or bind]. exists (from_json_bytes bs).
  set (c1 := set_body c (from_json_bytes bs)). destruct (take_emptied c1) as (c2 & T2 & M2). exists c2. split; [reflexivity|].
  assert (B : c_body c1 = from_json_bytes bs) by apply (C29_bodies_exchanged c (from_json_bytes bs)). destruct (put_headers c (from_json_bytes bs)) as [H1 H2]. fold c1 in H1, H2.
  destruct M2 as (M1 & M2 & M3 & _). split; [|split; [exact M1|split; [|split]]].
  - unfold body_json. rewrite T2, B. f_equal.
    apply (C27_json_form_round_trip T v bs [] parse_json (fun _ => Some v)); auto; cbn; lia.
  - rewrite M2. unfold type_after at 1. rewrite H1. unfold type_after. destruct (h_get (c_headers c) (lit "content-type")); reflexivity.
  - intros n Hn. rewrite M3 by exact Hn. apply H2, Hn.
  - intros n caps2. unfold body_json. destruct (take_emptied c2) as (c3 & T3 & _). rewrite T3, M1. cbn [fst]. unfold into_json. rewrite read_empty. cbn [option_map bind]. destruct (parse_json []); reflexivity.
Qed.
Theorem C90_form : forall (c : common V) v s caps, to_form v = Some s -> parse_form s = Some v -> valid_str s = true -> nlen (utf8_encode s) <= 2 ^ 63 - 1 ->
  (length (utf8_encode s) < length caps)%nat ->
  exists b c', from_form to_form v = Ok b /\ body_form parse_form caps (set_body c b) = (Some (Ok v), c') /\
    c_body c' = body_empty /\ h_get (c_headers c') (lit "content-type") = type_after c (Some MIME_FORM) /\
    (forall n, n <> lit "content-type" -> h_get (c_headers c') n = h_get (c_headers c) n) /\
    (forall n caps2, fst (body_form parse_form (n :: caps2) c') = Some (match parse_form [] with Some v' => Ok v' | None => Err 422 end)).
Proof.
  intros c v s caps J P W L1 L. unfold from_form. rewrite J. cbn [ok_or bind]. exists (from_form_text s).
  set (c1 := set_body c (from_form_text s)). destruct (take_emptied c1) as (c2 & T2 & M2). exists c2. split; [reflexivity|].
  assert (B : c_body c1 = from_form_text s) by apply (C29_bodies_exchanged c (from_form_text s)). destruct (put_headers c (from_form_text s)) as [H1 H2]. fold c1 in H1, H2.
  destruct M2 as (M1 & M2 & M3 & _). split; [|split; [exact M1|split; [|split]]].
  - unfold body_form. rewrite T2, B. f_equal.
    apply (C27_json_form_round_trip T v [] s (fun _ => Some v) parse_form); auto; cbn [length]; lia.
  - rewrite M2. unfold type_after at 1. rewrite H1. unfold type_after. destruct (h_get (c_headers c) (lit "content-type")); reflexivity.
  - intros n Hn. rewrite M3 by exact Hn. apply H2, Hn.
  - intros n caps2. unfold body_form. destruct (take_emptied c2) as (c3 & T3 & _). rewrite T3, M1. cbn [fst]. unfold into_form, into_string. change (isize_max <? _) with false. cbv iota. rewrite read_empty. cbn [option_map bind ok_or utf8_decode with_status]. destruct (parse_form []); reflexivity.
Qed.
(** A value that cannot be written makes no body: 500. *)
Theorem C90_unwritable : forall v, (from_json to_json v = Err 500 <-> to_json v = None) /\ (from_form to_form v = Err 500 <-> to_form v = None).
Proof. intros v. unfold from_json, from_form. destruct (to_json v), (to_form v); cbn; repeat split; congruence. Qed.

(** ** Buffered reading *)
Fixpoint message_accesses (c : common V) (l : list access) : list (poll (list N)) * common V :=
  match l with
  | [] => ([], c)
  | ARead cap :: l' => let '(r, c') := message_poll_read c cap in let '(rs, c'') := message_accesses c' l' in (r :: rs, c'')
  | ABuf amt :: l' =>
      match message_fill_buf c with
      | (Ready bs, c') => let '(rs, c'') := message_accesses (message_consume c' (Nat.min amt (length bs))) l' in
                          (Ready (firstn amt bs) :: rs, c'')
      | (r, c') => let '(rs, c'') := message_accesses c' l' in (r :: rs, c'')
      end
  end.

(** Reading through the message is reading through its body, in any mixture of the two ways; nothing else of
    the message moves. *)
Theorem C90_buffered : forall l (c : common V), message_accesses c l = (fst (accesses (c_body c) l), with_body c (snd (accesses (c_body c) l))).
Proof.
  induction l as [|[cap|amt] l IH]; intros c; cbn [message_accesses accesses].
  - destruct c; reflexivity.
  - unfold message_poll_read. destruct (poll_read (c_body c) cap) as [r b]. rewrite IH. cbn [with_body c_body c_headers c_version c_ext c_peer c_local].
    destruct (accesses b l); reflexivity.
  - unfold message_fill_buf, message_consume. destruct (poll_fill_buf (c_body c)) as [[|bs|e|] b]; rewrite IH; cbn [with_body c_body c_headers c_version c_ext c_peer c_local].
    + destruct (accesses b l); reflexivity.
    + destruct (accesses (consume b (Nat.min amt (length bs))) l); reflexivity.
    + destruct (accesses b l); reflexivity.
    + destruct (accesses b l); reflexivity.
Qed.
End Structured.
Print Assumptions C90_json_any.
Print Assumptions C90_form_any.
Print Assumptions C90_json.
Print Assumptions C90_form.
Print Assumptions C90_unwritable.
Print Assumptions C90_buffered.

Example C90_body_example :
  let parse (bs : list N) := parse_uint 10 99 bs in
  let c := set_body (common_new (V := unit)) (from_json_bytes (lit "42")) in
  let '(r1, c1) := body_json parse [0; 0; 9]%nat c in
  let '(r2, c2) := body_json parse [9]%nat c1 in
  (r1, r2, c_headers c2, fst (body_form (fun s => Some s) [9; 9]%nat (set_body c2 (from_bytes [255]))),
   fst (message_accesses c [ABuf 1; ARead 5; ABuf 5]%nat)) =
  (Some (Ok 42), Some (Err 422), [(lit "content-type", [lit "application/json"])], Some (Err 422), [Ready [52]; Ready [50]; Ready []]).
Proof. vm_compute. reflexivity. Qed.
