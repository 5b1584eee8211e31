(** C125: forms and queries made of names and values.  The format is written down from the URL standard, section 5 (what serde_urlencoded
    does for lists of pairs); the parameters of C90 are here filled with it. *)
From Coq Require Import ZifyBool ZifyNat ZifyN Lia.
From Verif Require Import Base BaseFacts Method Headers HeadersFacts Utf8 Mime MimeFacts Body BodyFacts BodyProps Message MessageProps MessageOps Query QueryProps.

(** ** application/x-www-form-urlencoded *)
Definition kept (b : N) : bool :=
  ((48 <=? b) && (b <=? 57)) || ((65 <=? b) && (b <=? 90)) || ((97 <=? b) && (b <=? 122)) || existsb (N.eqb b) [42; 45; 46; 95].
Definition hex_upper (n : N) : N := if n <? 10 then 48 + n else 55 + n.
Definition form_byte (b : N) : str := if kept b then [b] else if b =? 32 then [43] else [37; hex_upper (b / 16); hex_upper (b mod 16)].
Definition form_word (s : str) : str := flat_map form_byte (utf8_encode s).
Definition form_pair (p : str * str) : str := form_word (fst p) ++ [61] ++ form_word (snd p).
Definition form_write (l : list (str * str)) : str := join [38] (map form_pair l).

Definition unhex (c : N) : option N :=
  if (48 <=? c) && (c <=? 57) then Some (c - 48) else if (65 <=? c) && (c <=? 70) then Some (c - 55) else if (97 <=? c) && (c <=? 102) then Some (c - 87) else None.
Fixpoint unescaped (s : list N) : list N :=
  match s with
  | [] => []
  | c :: t =>
      if c =? 43 then 32 :: unescaped t
      else if c =? 37 then
        match t with
        | a :: u =>
            match u with
            | b :: v => match unhex a, unhex b with Some x, Some y => (16 * x + y) :: unescaped v | _, _ => c :: unescaped t end
            | [] => c :: unescaped t
            end
        | [] => [c]
        end
      else c :: unescaped t
  end.

Definition fine (p : str * str) : Prop := valid_str (fst p) = true /\ valid_str (snd p) = true.
(** The characters a form is made of. *)
Definition form_char (c : N) : bool := kept c || existsb (N.eqb c) [43; 37].

Lemma byte_chars : forall b, b < 256 -> forallb form_char (form_byte b) = true.
Proof.
  intros b B. unfold form_byte. destruct (kept b) eqn:K; [cbn [forallb]; unfold form_char; now rewrite K|]. destruct (b =? 32); [reflexivity|].
  assert (H : forall n, n < 16 -> form_char (hex_upper n) = true).
  { intros n L. unfold form_char, kept, hex_upper. destruct (N.ltb_spec n 10); apply orb_true_iff; left; lia. }
  cbn [forallb]. rewrite !H; [reflexivity| |]; [apply N.mod_lt; lia|apply N.div_lt_upper_bound; lia].
Qed.
Lemma word_chars : forall s, valid_str s = true -> forallb form_char (form_word s) = true.
Proof.
  intros s V. unfold form_word. assert (F := utf8_encode_bytes s V). induction F as [|b l B F IH]; [reflexivity|]. cbn [flat_map]. rewrite forallb_app, IH, byte_chars by exact B. reflexivity.
Qed.
Lemma unhex_ok : forall n, n < 16 -> unhex (hex_upper n) = Some n.
Proof.
  intros n L. unfold unhex, hex_upper. destruct (N.ltb_spec n 10).
  - replace ((48 <=? 48 + n) && (48 + n <=? 57)) with true by lia. f_equal. lia.
  - replace ((48 <=? 55 + n) && (55 + n <=? 57)) with false by lia. replace ((65 <=? 55 + n) && (55 + n <=? 70)) with true by lia. f_equal. lia.
Qed.
Lemma unescaped_byte : forall b r, b < 256 -> unescaped (form_byte b ++ r) = b :: unescaped r.
Proof.
  intros b r B. unfold form_byte. destruct (kept b) eqn:K.
  - cbn [app unescaped]. destruct (N.eqb_spec b 43) as [->|_]; [discriminate K|]. destruct (N.eqb_spec b 37) as [->|_]; [discriminate K|]. reflexivity.
  - destruct (N.eqb_spec b 32) as [->|_]; [reflexivity|]. cbn [app unescaped]. change (37 =? 43) with false. change (37 =? 37) with true. cbn match.
    rewrite !unhex_ok; [|apply N.mod_lt; lia|apply N.div_lt_upper_bound; lia]. f_equal. pose proof (N.div_mod b 16 ltac:(lia)). lia.
Qed.
Lemma unescaped_word : forall s, valid_str s = true -> unescaped (form_word s) = utf8_encode s.
Proof.
  intros s V. unfold form_word. assert (F := utf8_encode_bytes s V). induction F as [|b l B F IH]; [reflexivity|]. cbn [flat_map]. rewrite unescaped_byte by exact B. now rewrite IH.
Qed.
Lemma free_of : forall c s, form_char c = false -> forallb form_char s = true -> no_char c s = true.
Proof.
  intros c s C F. unfold no_char. rewrite forallb_forall in *. intros x I. specialize (F x I). apply negb_true_iff. apply N.eqb_neq. intros ->. congruence.
Qed.

Definition form_text (s : str) : bool := forallb (fun c => form_char c || existsb (N.eqb c) [61; 38]) s.
Lemma pair_text : forall p, fine p -> form_text (form_pair p) = true /\ no_char 38 (form_pair p) = true.
Proof.
  intros p [V W]. assert (A := word_chars _ V). assert (B := word_chars _ W). unfold form_pair. split.
  - unfold form_text. rewrite !forallb_app.
    assert (G : forall s, forallb form_char s = true -> forallb (fun c => form_char c || existsb (N.eqb c) [61; 38]) s = true).
    { intros s F. rewrite forallb_forall in *. intros c I. now rewrite (F c I). }
    rewrite (G _ A), (G _ B). reflexivity.
  - rewrite !no_char_app. rewrite (free_of 38 _ eq_refl A), (free_of 38 _ eq_refl B). reflexivity.
Qed.

(** A form is text of a few ASCII characters. *)
Theorem C125_alphabet : forall l, Forall fine l -> form_text (form_write l) = true.
Proof.
  intros l F. unfold form_write. induction F as [|p l P F IH]; [reflexivity|]. cbn [map join]. destruct (map form_pair l) as [|q r] eqn:E; [now apply pair_text|].
  unfold form_text in *. rewrite !forallb_app, IH. destruct (pair_text p P) as [T _]. unfold form_text in T. rewrite T. reflexivity.
Qed.
Lemma text_ascii : forall s, form_text s = true -> is_ascii s = true.
Proof.
  intros s T. unfold form_text, is_ascii in *. rewrite forallb_forall in *. intros c I. specialize (T c I). unfold form_char, kept in T. cbn [existsb] in T. lia.
Qed.

Section Forms.
  (** [String::from_utf8_lossy]; all that is asked is that valid UTF-8 is decoded. *)
  Context (lossy : list N -> str) (lossy_ok : forall bs s, utf8_decode bs = Some s -> lossy bs = s).
  Definition form_read_pair (s : list N) : str * str :=
    match split_once 61 s with Some (n, v) => (lossy (unescaped n), lossy (unescaped v)) | None => (lossy (unescaped s), lossy []) end.
  Definition form_read (s : str) : list (str * str) :=
    map form_read_pair (filter (fun p => match p with [] => false | _ => true end) (split 38 (utf8_encode s))).

  Lemma word_lossy : forall s, valid_str s = true -> lossy (unescaped (form_word s)) = s.
  Proof. intros s V. rewrite unescaped_word by exact V. apply lossy_ok, utf8_decode_encode, V. Qed.

  (** What was written is read: all names and values, in order, repeated and empty ones too. *)
  Theorem C125_round_trip : forall l, Forall fine l -> form_read (form_write l) = l.
  Proof.
    intros l F. unfold form_read. rewrite utf8_ascii by (apply text_ascii, C125_alphabet, F).
    destruct l as [|p l]; [reflexivity|]. unfold form_write. rewrite split_join.
    - assert (N : forall q, form_pair q <> []) by (intros q H; unfold form_pair in H; apply app_eq_nil in H as [_ H]; discriminate H).
      revert F. generalize (p :: l). clear p l. intros l F. induction F as [|p l [V W] F IH]; [reflexivity|]. cbn [map filter].
      destruct (form_pair p) as [|c r] eqn:E; [now elim (N p)|]. cbn [map]. rewrite IH, <- E. f_equal. unfold form_read_pair, form_pair.
      cbn [app]. rewrite split_once_app; [|apply (free_of 61); [reflexivity|now apply word_chars]]. rewrite !word_lossy by assumption. now destruct p.
    - discriminate.
    - apply Forall_forall. intros x I. apply in_map_iff in I as (q & <- & I). rewrite Forall_forall in F. now apply pair_text, F.
  Qed.
  Theorem C125_injective : forall l l', Forall fine l -> Forall fine l' -> form_write l = form_write l' -> l = l'.
  Proof. intros l l' F F' E. rewrite <- (C125_round_trip l F), <- (C125_round_trip l' F'). now rewrite E. Qed.
End Forms.

(** The hypothesis on [lossy] can be met. *)
Lemma lossy_exists : exists lossy, forall bs s, utf8_decode bs = Some s -> lossy bs = s.
Proof. exists (fun bs => match utf8_decode bs with Some s => s | None => [65533] end). intros bs s E. now rewrite E. Qed.

(** A form set as the body of a message is read from it by [body_form]. *)
Theorem C125_body : forall V lossy (c : common V) l caps, (forall bs s, utf8_decode bs = Some s -> lossy bs = s) -> Forall fine l ->
  nlen (form_write l) <= 2 ^ 63 - 1 -> (length (form_write l) < length caps)%nat ->
  exists b c', from_form (fun l => Some (form_write l)) l = Ok b /\
    body_form (fun s => Some (form_read lossy s)) caps (set_body c b) = (Some (Ok l), c') /\
    (h_get (c_headers c) (lit "content-type") = None -> h_get (c_headers c') (lit "content-type") = Some [lit "application/x-www-form-urlencoded"]).
Proof.
  intros V lossy c l caps OK F L1 L2. assert (A := text_ascii _ (C125_alphabet l F)).
  destruct (C90_form (fun _ => None) (fun _ => None) (fun l => Some (form_write l)) (fun s => Some (form_read lossy s)) c l (form_write l) caps) as (b & c' & B & R & _ & T & _);
    rewrite ?utf8_ascii by exact A; try assumption; try reflexivity.
  - now rewrite C125_round_trip.
  - unfold valid_str. unfold is_ascii in A. rewrite forallb_forall in *. intros x I. specialize (A x I). unfold is_scalar. lia.
  - exists b, c'. split; [exact B|]. split; [exact R|]. intros N. rewrite T. unfold type_after. rewrite N. vm_compute. reflexivity.
Qed.
(** Pairs set as the query of a request are read from it by [query], for every encoding of queries that leaves alone the characters a form
    is made of, as the URL standard's does. *)
Theorem C125_query : forall V lossy enc (r : request V) l, (forall bs s, utf8_decode bs = Some s -> lossy bs = s) -> (forall s, form_text s = true -> enc s = s) -> Forall fine l ->
  query (fun s => Some (form_read lossy s)) (fst (set_query enc (fun l => Some (form_write l)) r l)) = Ok l /\
  url_query (rq_url (fst (set_query enc (fun l => Some (form_write l)) r l))) = Some (form_write l).
Proof.
  intros V lossy enc r l OK E F. assert (T := C125_alphabet l F).
  assert (N : no_char 35 (form_write l) = true).
  { unfold no_char, form_text in *. rewrite forallb_forall in *. intros c I. specialize (T c I). apply negb_true_iff, N.eqb_neq. intros ->. discriminate T. }
  destruct (parts_exist (rq_url r)) as (base & q & f & P & B1 & B2 & Q).
  destruct (C90_set_query enc (fun l => Some (form_write l)) (fun s => Some (form_read lossy s)) r l (form_write l) base q f P B1 B2 Q eq_refl) as (r' & R & _ & U & _ & _ & _ & _ & Z);
    [rewrite (E _ T); exact N|]. rewrite R. cbn [fst]. rewrite Z, U, (E _ T). now rewrite C125_round_trip.
Qed.
Print Assumptions C125_alphabet.
Print Assumptions C125_round_trip.
Print Assumptions C125_injective.
Print Assumptions C125_body.
Print Assumptions C125_query.

Example C125_example :
  let lossy bs := match utf8_decode bs with Some s => s | None => [65533] end in
  let l := [(lit "a b", lit "1&2=3"); ([], []); ([228; 8364], lit "*-._"); (lit "a b", lit "%+")] in
  form_write l = lit "a+b=1%262%3D3&=&%C3%A4%E2%82%AC=*-._&a+b=%25%2B" /\ form_read lossy (form_write l) = l /\ Forall fine l /\
  form_read lossy (lit "&x&&y=1=2&%zz=%4") = [(lit "x", []); (lit "y", lit "1=2"); (lit "%zz", lit "%4")].
Proof.
  cbn zeta. split; [vm_compute; reflexivity|]. split; [vm_compute; reflexivity|]. split; [repeat constructor|vm_compute; reflexivity].
Qed.
(** In a request for [https://a.b/c?old#top] and in the body of a message. *)
Example C125_example_message :
  let lossy bs := match utf8_decode bs with Some s => s | None => [65533] end in
  let l := [(lit "a b", lit "1&2"); ([228], [])] in
  let r := mkRequest M_Get (mkUrl (lit "https://a.b/c?old#top") (Some (lit "a.b"))) (common_new (V := unit)) (mkEnds None None false) in
  let r' := fst (set_query (fun s => s) (fun l => Some (form_write l)) r l) in
  (url_text (rq_url r'), query (fun s => Some (form_read lossy s)) r',
   match from_form (fun l => Some (form_write l)) l with
   | Ok b => fst (body_form (fun s => Some (form_read lossy s)) (repeat 1%nat 30) (set_body (common_new (V := unit)) b))
   | _ => None
   end) =
  (lit "https://a.b/c?a+b=1%262&%C3%A4=#top", Ok l, Some (Ok l)).
Proof. vm_compute. reflexivity. Qed.
