(** C99: what is read from a header is no larger than the header.  The number of entries is bounded by the number of commas and values,
    and the text kept in the entries by the text of the header, so a message cannot make its receiver store much more than it sent. *)
From Coq Require Import ZifyBool ZifyNat ZifyN Lia.
From Verif Require Import Base BaseFacts Utf8 Headers HeadersFacts Typed TypedFacts Conditional Cache Auth AuthProps AuthExactProps.
From Verif Require Import Float Mime MimeFacts Negotiate Method Other ParseUtils ParseUtilsFacts Forwarded Timing Trace.
Open Scope nat_scope.

(** How often a character occurs; the characters of several texts; the pieces between the commas of several values. *)
Definition count (c : N) (s : str) : nat := count_occ N.eq_dec s c.
Definition chars (vs : list str) : nat := length (concat vs).
Definition pieces (vs : list str) : nat := length vs + count 44 (concat vs).
Definition b2n (b : bool) : nat := if b then 1 else 0.

Lemma count_app : forall c a b, count c (a ++ b) = count c a + count c b.
Proof. intros. apply count_occ_app. Qed.
Lemma count_le : forall c s, count c s <= length s.
Proof. intros c s. apply count_occ_bound. Qed.
Lemma chars_cons : forall v vs, chars (v :: vs) = length v + chars vs.
Proof. intros. unfold chars. cbn [concat]. apply app_length. Qed.
Lemma chars_app : forall a b, chars (a ++ b) = chars a + chars b.
Proof. intros. unfold chars. rewrite concat_app. apply app_length. Qed.
Lemma pieces_cons : forall v vs, pieces (v :: vs) = 1 + count 44 v + pieces vs.
Proof. intros. unfold pieces. cbn [concat length]. rewrite count_app. lia. Qed.

Lemma split_count : forall d s, length (split d s) = 1 + count d s /\ chars (split d s) + count d s = length s.
Proof.
  intros d. induction s as [|c s [IH1 IH2]]; [split; reflexivity|]. cbn [split]. unfold count in *. cbn [count_occ length].
  destruct (N.eqb_spec c d) as [->|Hne].
  - destruct (N.eq_dec d d) as [_|X]; [|congruence]. rewrite chars_cons. cbn [length]. lia.
  - destruct (N.eq_dec c d) as [X|_]; [congruence|]. destruct (split d s) as [|p ps]; [cbn in IH1; lia|]. rewrite chars_cons in *. cbn [length] in *. lia.
Qed.
Lemma trim_matches_inside : forall p s, exists a b, s = a ++ trim_matches p s ++ b.
Proof. intros p s. destruct (trim_matches_decomp p s) as (a & b & E & _). eauto. Qed.
Lemma trim_size : forall s, length (trim s) <= length s /\ forall c, count c (trim s) <= count c s.
Proof.
  intros s. destruct (trim_matches_inside is_ws s) as (a & b & E). fold (trim s) in E.
  split; [|intros c]; rewrite E at 2; rewrite ?app_length, ?count_app; lia.
Qed.
Lemma comma_parts_size : forall vs, length (comma_parts vs) <= pieces vs /\ chars (comma_parts vs) <= chars vs.
Proof.
  induction vs as [|v vs [IH1 IH2]]; [split; cbn; lia|]. unfold comma_parts in *. cbn [flat_map]. rewrite app_length, chars_app, pieces_cons, chars_cons. cbn [length].
  destruct (split_count c_comma (trim v)) as [A B]. destruct (trim_size v) as [T C]. specialize (C c_comma). change c_comma with 44%N in *. lia.
Qed.

(** ** The reading loops *)
Lemma read_parts_size : forall A star (parse : str -> outcome A) (m : A -> nat), (forall t e, parse t = Ok e -> m e <= length t) ->
  forall parts es w, read_parts star parse parts = Ok (es, w) -> length es + b2n w <= length parts /\ list_sum (map m es) <= chars parts.
Proof.
  intros A star parse m M. induction parts as [|p ps IH]; cbn [read_parts]; intros es w E.
  - injection E as <- <-. cbn. lia.
  - destruct (trim_size p) as [T _]. rewrite chars_cons. cbn [length]. destruct (seqb (trim p) star).
    + destruct (read_parts star parse ps) as [[es' w']| |]; cbn [bind] in E; try discriminate E. injection E as <- <-. destruct (IH _ _ eq_refl) as [I1 I2]. cbn [b2n]. lia.
    + destruct (parse (trim p)) as [e| |] eqn:P; cbn [bind] in E; try discriminate E. apply M in P.
      destruct (read_parts star parse ps) as [[es' w']| |]; cbn [bind] in E; try discriminate E. injection E as <- <-. destruct (IH _ _ eq_refl) as [I1 I2].
      cbn [length map list_sum fold_right]. fold (list_sum (map m es')). lia.
Qed.
Lemma read_skipping_size : forall A (parse : str -> outcome (option A)) (m : A -> nat), (forall t e, parse t = Ok (Some e) -> m e <= length t) ->
  forall parts es w, read_skipping parse parts = Ok (es, w) -> length es + b2n w <= length parts /\ list_sum (map m es) <= chars parts.
Proof.
  intros A parse m M. induction parts as [|p ps IH]; cbn [read_skipping]; intros es w E.
  - injection E as <- <-. cbn. lia.
  - destruct (trim_size p) as [T _]. rewrite chars_cons. cbn [length]. destruct (seqb (trim p) []); [destruct (IH _ _ E); lia|]. destruct (seqb (trim p) (lit "*")).
    + destruct (read_skipping parse ps) as [[es' w']| |]; cbn [bind] in E; try discriminate E. injection E as <- <-. destruct (IH _ _ eq_refl) as [I1 I2]. cbn [b2n]. lia.
    + destruct (parse (trim p)) as [e| |] eqn:P; cbn [bind] in E; try discriminate E.
      destruct (read_skipping parse ps) as [[es' w']| |]; cbn [bind] in E; try discriminate E. injection E as <- <-. destruct (IH _ _ eq_refl) as [I1 I2].
      destruct e as [e|]; [|lia]. apply M in P. cbn [length map list_sum fold_right]. fold (list_sum (map m es')). lia.
Qed.
Lemma with_all_ok : forall A h n (k : header_values -> outcome A) a vs, with_all h n k = Ok (Some a) -> h_get h n = Some vs -> k vs = Ok a.
Proof. intros A h n k a vs E G. unfold with_all in E. rewrite G in E. destruct (k vs); cbn [bind] in E; congruence. Qed.

(** ** Conditions and Vary *)
Definition tag_size (e : etag) : nat := match e with Strong s => 2 + length s | Weak s => 4 + length s end.
Lemma etag_size : forall t e, etag_from_str t = Ok e -> tag_size e <= length t.
Proof.
  intros t e E. unfold etag_from_str in E.
  assert (Q : forall s r, match strip_prefix [34%N] s with Some r => strip_suffix [34%N] r | None => None end = Some r -> length s = 2 + length r).
  { intros s r. destruct (strip_prefix [34%N] s) as [x|] eqn:P; [|discriminate]. intros S. apply strip_prefix_some in P. apply strip_suffix_some in S. subst. rewrite !app_length. cbn. lia. }
  destruct (strip_prefix (lit "W/") t) as [r|] eqn:W.
  - apply strip_prefix_some in W. subst t. destruct (match strip_prefix [34%N] r with Some r0 => strip_suffix [34%N] r0 | None => None end) as [x|] eqn:S; [|discriminate E].
    apply Q in S. destruct (forallb etag_char x); [|discriminate E]. injection E as <-. rewrite app_length. cbn [length lit]. cbn. lia.
  - destruct (match strip_prefix [34%N] t with Some r0 => strip_suffix [34%N] r0 | None => None end) as [x|] eqn:S; [|discriminate E].
    apply Q in S. destruct (forallb etag_char x); [|discriminate E]. injection E as <-. cbn. lia.
Qed.
Theorem C99_conditions : forall k h vs es w, h_get h (cond_name k) = Some vs -> cond_from_headers k h = Ok (Some (es, w)) ->
  length es + b2n w <= pieces vs /\ list_sum (map tag_size es) <= chars vs.
Proof.
  intros k h vs es w G E. apply (with_all_ok _ _ _ _ _ _ E) in G. destruct (comma_parts_size vs) as [P C].
  destruct (read_parts_size _ _ _ tag_size etag_size _ _ _ G). lia.
Qed.
Lemma to_lower_length : forall s, length (to_lower s) = length s.
Proof. intros. apply map_length. Qed.
Lemma chars_sum : forall vs : list str, list_sum (map (@length N) vs) = chars vs.
Proof. induction vs as [|v vs IH]; [reflexivity|]. rewrite chars_cons, <- IH. reflexivity. Qed.
Theorem C99_vary : forall h vs names w, h_get h (lit "vary") = Some vs -> vary_from_headers h = Ok (Some (names, w)) ->
  length names + b2n w <= pieces vs /\ chars names <= chars vs.
Proof.
  intros h vs es w G E. apply (with_all_ok _ _ _ _ _ _ E) in G. destruct (comma_parts_size vs) as [P C].
  assert (M : forall t e, name_from_str (trim t) = Ok e -> length e <= length t).
  { intros t e X. destruct (trim_size t) as [T _]. unfold name_from_str in X. destruct (is_ascii (trim t)); [|discriminate X]. injection X as <-. now rewrite to_lower_length. }
  destruct (read_parts_size _ _ _ (@length N) M _ _ _ G) as [A B]. split; [exact (Nat.le_trans _ _ _ A P)|].
  transitivity (chars (comma_parts vs)); [|exact C]. rewrite <- (chars_sum es). exact B.
Qed.
Example conditions_size_met :
  let h := [(lit "if-match", [lit """a"", W/""bc"", *"; lit """d"""])] in
  cond_from_headers IfMatch h = Ok (Some ([Strong (lit "a"); Weak (lit "bc"); Strong (lit "d")], true)) /\
  pieces [lit """a"", W/""bc"", *"; lit """d"""] = 4 /\ list_sum (map tag_size [Strong (lit "a"); Weak (lit "bc"); Strong (lit "d")]) = 12.
Proof. vm_compute. auto. Qed.
Example vary_size_met : vary_from_headers [(lit "vary", [lit "Accept, , *"])] = Ok (Some ([lit "accept"; []], true)) /\ pieces [lit "Accept, , *"] = 3.
Proof. vm_compute. auto. Qed.

(** ** Cache-Control, Clear-Site-Data, Allow, the codings *)
Theorem C99_cache_control : forall h vs l, h_get h (lit "cache-control") = Some vs -> cache_from_headers h = Ok (Some l) -> length l <= pieces vs.
Proof.
  intros h vs l G E. apply (with_all_ok _ _ _ _ _ _ E) in G. destruct (comma_parts_size vs) as [P _]. clear E. cut (length l <= length (comma_parts vs)); [lia|]. clear P.
  revert l G. induction (comma_parts vs) as [|p ps IH]; cbn [read_directives]; intros l E; [injection E as <-; cbn; lia|].
  destruct (directive_from_str p) as [d| |]; cbn [bind] in E; try discriminate E. destruct (read_directives ps) as [es| |]; cbn [bind] in E; try discriminate E.
  injection E as <-. specialize (IH _ eq_refl). destruct d; cbn [length]; lia.
Qed.
Theorem C99_allow : forall h vs l, h_get h (lit "allow") = Some vs -> allow_from_headers h = Ok (Some l) -> length l <= pieces vs.
Proof.
  intros h vs l G E. apply (with_all_ok _ _ _ _ _ _ E) in G. destruct (comma_parts_size vs) as [P _]. clear E.
  cut (forall ps acc l, allow_read ps acc = Ok l -> length l <= length acc + length ps); [intros X; specialize (X _ _ _ G); cbn in X; lia|]. clear.
  induction ps as [|p ps IH]; cbn [allow_read]; intros acc l E; [injection E as <-; cbn; lia|].
  destruct (method_from_str (trim p)) as [m| |]; cbn [bind] in E; try discriminate E. apply IH in E. cbn [length].
  unfold set_insert in E. destruct (existsb _ acc); cbn [length] in E; rewrite ?app_length in E; cbn [length] in E; lia.
Qed.
Theorem C99_codings : forall k h vs l w, h_get h (accept_name k) = Some vs -> accept_from_headers k h = Ok (Some (l, w)) -> length l + b2n w <= pieces vs.
Proof.
  intros k h vs l w G E. apply (with_all_ok _ _ _ _ _ _ E) in G. destruct (comma_parts_size vs) as [P C].
  destruct (read_skipping_size _ _ (fun _ => 0) (fun _ _ _ => Nat.le_0_l _) _ _ _ G) as [A _]. exact (Nat.le_trans _ _ _ A P).
Qed.


(** ** Media types *)
(** A parameter takes a semicolon and an equals sign besides its name and value; "charset=utf-8" is kept as a flag. *)
Definition param_size (p : str * str) : nat := 2 + length (fst p) + length (snd p).
Definition params_size (st : bool * list (str * str)) : nat := 14 * b2n (fst st) + list_sum (map param_size (snd st)).
Definition media_size (m : mime) : nat := length (basetype m) + 1 + length (subtype m) + params_size (is_utf8 m, params m).
Lemma push_size : forall n v st, params_size (push_param n v st) <= params_size st + param_size (n, v).
Proof.
  intros n v [u ps]. unfold push_param, params_size. destruct (seqb n (lit "charset") && seqb v (lit "utf-8")) eqn:C.
  - apply andb_prop in C as [C1 C2]. apply seqb_eq in C1, C2. subst n v. cbn [fst snd b2n]. change (param_size (lit "charset", lit "utf-8")) with 14. destruct u; cbn [b2n]; lia.
  - match goal with |- context [if ?b then _ else _] => destruct b end; [|cbn [fst snd]; lia].
    destruct (existsb _ ps); cbn [fst snd]; [lia|]. rewrite map_app, list_sum_app. cbn [map list_sum fold_right]. lia.
Qed.
Lemma quoted_loop_size : forall n s v, length s <= n -> length (fst (quoted_loop s v)) + length (snd (quoted_loop s v)) <= length s + length v.
Proof.
  induction n as [|n IH]; intros s v H.
  - destruct s; [cbn; lia|cbn in H; lia].
  - destruct s as [|c s]; cbn [quoted_loop]; [cbn; lia|]. cbn [length] in *.
    destruct (c =? 34)%N; [cbn; lia|]. destruct (c =? 92)%N.
    + destruct s as [|c' s]; [cbn; rewrite app_length; cbn; lia|]. cbn [length] in *.
      assert (A := IH s (v ++ [c'])). rewrite app_length in A. cbn [length] in A. lia.
    + assert (A := IH s (v ++ [c])). rewrite app_length in A. cbn [length] in A. lia.
Qed.
Lemma collect_until_size : forall p s a b, collect_until p s = (a, b) -> length a + length b = length s.
Proof. intros p s a b E. apply collect_until_rest in E as (_ & -> & _). now rewrite app_length. Qed.
Lemma slice1_size : forall s r, slice1 s = Ok r -> length s = 1 + length r.
Proof. intros [|c s] r; cbn; [discriminate|]. destruct (c <? 128)%N; intros E; inversion E. reflexivity. Qed.
Lemma trim_end_size : forall p s, length (trim_end_matches p s) <= length s.
Proof. intros p s. destruct (trim_end_prefix p s) as (b & E & _). rewrite E at 2. rewrite app_length. lia. Qed.
Lemma parse_params_size : forall fuel input st st', Mime.parse_params fuel input st = Ok st' -> params_size st' <= params_size st + length input.
Proof.
  induction fuel as [|f IH]; intros input st st'; [discriminate|]. cbn [Mime.parse_params]. destruct input as [|c0 input0]; [intros E; injection E as <-; lia|].
  destruct (slice1 (c0 :: input0)) as [i1| |] eqn:S; cbn [bind]; try discriminate. apply slice1_size in S.
  assert (L1 := trim_start_length is_http_ws i1).
  destruct (collect_until (fun c => (c =? 59) || (c =? 61))%N (trim_start_matches is_http_ws i1)) as [name rest] eqn:E. apply collect_until_size in E.
  destruct rest as [|c rest]; [intros X; injection X as <-; lia|]. destruct (c =? 59)%N; [intros X; apply IH in X; lia|].
  destruct (slice1 (c :: rest)) as [i2| |] eqn:S2; cbn [bind]; try discriminate. apply slice1_size in S2.
  destruct (starts_with [34%N] i2).
  - unfold collect_quoted. destruct (slice1 i2) as [i3| |] eqn:S3; cbn [bind]; try discriminate. apply slice1_size in S3.
    assert (Q := quoted_loop_size _ i3 [] (le_n _)). destruct (quoted_loop i3 []) as [value i4]. cbn [bind fst snd length] in *.
    destruct (collect_until (N.eqb 59) i4) as [skip i5] eqn:E2. apply collect_until_size in E2.
    intros X. apply IH in X. assert (P := push_size (to_lower name) value st). unfold param_size in P. cbn [fst snd] in P. rewrite to_lower_length in P. lia.
  - destruct (collect_until (N.eqb 59) i2) as [value i4] eqn:E2. apply collect_until_size in E2. assert (T := trim_end_size is_http_ws value).
    destruct (trim_end_matches is_http_ws value) as [|v0 value'] eqn:V; intros X; apply IH in X; [lia|].
    assert (P := push_size (to_lower name) (v0 :: value') st). unfold param_size in P. cbn [fst snd] in P. rewrite to_lower_length in P. lia.
Qed.
Theorem C99_media_type : forall s m, mime_parse s = Ok m -> media_size m <= length s.
Proof.
  intros s m E. unfold mime_parse in E. destruct (trim_matches_inside is_http_ws s) as (a & b & F). set (t := trim_matches is_http_ws s) in *.
  assert (L : length t <= length s) by (rewrite F; rewrite !app_length; lia). clearbody t. clear F.
  destruct (collect_until (N.eqb 47) t) as [base i1] eqn:C1. apply collect_until_size in C1.
  match type of E with (if ?x then _ else _) = _ => destruct x; [discriminate E|] end. match type of E with (if ?x then _ else _) = _ => destruct x; [discriminate E|] end.
  destruct i1 as [|c0 i1]; [discriminate E|]. destruct (slice1 (c0 :: i1)) as [i2| |] eqn:S1; cbn [bind] in E; try discriminate E. apply slice1_size in S1.
  destruct (collect_until (N.eqb 59) i2) as [sub i3] eqn:C2. apply collect_until_size in C2. assert (T := trim_end_size is_http_ws sub).
  match type of E with (if ?x then _ else _) = _ => destruct x; [discriminate E|] end. match type of E with (if ?x then _ else _) = _ => destruct x; [discriminate E|] end.
  destruct (Mime.parse_params (S (length i3)) i3 (false, [])) as [st| |] eqn:P; cbn [bind] in E; try discriminate E. injection E as <-.
  apply parse_params_size in P. change (params_size (false, [])) with 0 in P. unfold media_size. cbn [basetype subtype is_utf8 params]. rewrite !to_lower_length.
  destruct st as [u ps]. cbn [fst snd] in *. lia.
Qed.
Lemma remove_first_size : forall ps n, list_sum (map param_size (remove_first ps n)) <= list_sum (map param_size ps).
Proof. induction ps as [|[k v] ps IH]; intros n; [cbn; lia|]. cbn [remove_first]. destruct (seqb k n); cbn [map list_sum fold_right]; [|specialize (IH n)]; fold (list_sum (map param_size ps)) in *; try fold (list_sum (map param_size (remove_first ps n))); lia. Qed.
Lemma media_from_size : forall t e, media_from_str t = Ok e -> media_size (mp_type e) <= length t.
Proof.
  intros t e X. unfold media_from_str in X. destruct (mime_parse t) as [m| |] eqn:Y; cbn [bind] in X; try discriminate X. apply C99_media_type in Y.
  unfold remove_param in X. change (param_name (lit "q")) with (@Ok str (lit "q")) in X. cbn [bind] in X.
  change (seqb (lit "q") (lit "charset") && is_utf8 m) with false in X. cbv iota beta in X. cbn [bind] in X.
  match type of X with bind ?y _ = _ => destruct y as [x| |]; cbn [bind] in X; try discriminate X end.
  unfold media_new in X. destruct (weight_ok x); [|discriminate X]. injection X as <-. cbn [mp_type].
  unfold media_size, params_size in *. cbn [basetype subtype is_utf8 params fst snd] in *. assert (R := remove_first_size (params m) (lit "q")). lia.
Qed.
Theorem C99_accept : forall h vs l w, h_get h (lit "accept") = Some vs -> media_from_headers h = Ok (Some (l, w)) ->
  length l + b2n w <= pieces vs /\ list_sum (map (fun p => media_size (mp_type p)) l) <= chars vs.
Proof.
  intros h vs l w G E. apply (with_all_ok _ _ _ _ _ _ E) in G. destruct (comma_parts_size vs) as [P C].
  assert (M : forall t e, (let* m := media_from_str t in Ok (Some m)) = Ok (Some e) -> media_size (mp_type e) <= length t).
  { intros t e X. destruct (media_from_str t) as [p| |] eqn:Y; cbn [bind] in X; try discriminate X. injection X as ->. exact (media_from_size _ _ Y). }
  destruct (read_skipping_size _ _ _ M _ _ _ G) as [A B]. lia.
Qed.
Example media_size_met :
  let s := lit " Text/HTML; Charset=UTF-8; charset=utf-8;q=""\0.5""; a=b ;a=c" in
  match mime_parse s with Ok m => media_size m = 9 + 14 + 14 + 6 + 4 /\ length s = 59 /\ length (params m) = 3 | _ => False end.
Proof. vm_compute. auto. Qed.
Example accept_size_met :
  match media_from_headers [(lit "accept", [lit "text/html;q=0.5, */*;a=b, *"])] with
  | Ok (Some (l, w)) => map (fun p => media_size (mp_type p)) l = [9; 7] /\ w = true | _ => False end.
Proof. vm_compute. auto. Qed.

(** ** Clear-Site-Data and the timing headers *)
Theorem C99_clear_site_data : forall h vs l w, h_get h (lit "clear-site-data") = Some vs -> clear_from_headers h = Ok (Some (l, w)) ->
  length l + b2n w <= pieces vs /\ chars (map clear_str l) <= chars vs.
Proof.
  intros h vs l w G E. apply (with_all_ok _ _ _ _ _ _ E) in G. destruct (comma_parts_size vs) as [P C].
  assert (M : forall t e, clear_from_str t = Ok e -> length (clear_str e) <= length t).
  { intros t e X. unfold clear_from_str in X.
    do 4 (match type of X with (if ?q then _ else _) = _ => destruct q eqn:Q end; [apply seqb_eq in Q; rewrite Q; injection X as <-; apply le_n|clear Q]). discriminate X. }
  destruct (read_parts_size _ _ _ (fun e => length (clear_str e)) M _ _ _ G) as [A B]. split; [exact (Nat.le_trans _ _ _ A P)|].
  rewrite <- chars_sum, map_map. exact (Nat.le_trans _ _ _ B C).
Qed.
Definition metric_size (m : metric) : nat := length (m_name m) + match m_desc m with Some t => length t | None => 0 end.
Section Entries.
  Context (nanos_of : N -> N).
  Let bytes (o : option str) : nat := match o with Some t => length t | None => 0 end.
  Lemma parse_desc_size : forall v t, parse_desc v = Ok t -> length t <= length v.
  Proof.
    intros v t E. unfold parse_desc in E. destruct (strip_prefix (lit """") v) as [r|] eqn:P.
    - destruct (strip_suffix (lit """") r) as [r'|] eqn:S; [|discriminate E]. injection E as <-. apply strip_prefix_some in P. apply strip_suffix_some in S. subst. rewrite !app_length. lia.
    - destruct (strip_suffix (lit """") v); [discriminate E|]. injection E as <-. lia.
  Qed.
  Lemma parse_param_size : forall st p st', parse_param nanos_of st p = Ok st' -> bytes (snd st') <= Nat.max (bytes (snd st)) (length p).
  Proof.
    intros [d t] p st' E. unfold parse_param in E. destruct p as [|c p]; [discriminate E|]. set (s := c :: p) in *. clearbody s.
    destruct (split_count c_eq (trim_start s)) as [_ Q]. assert (T := trim_start_length is_ws s). unfold trim_start in *.
    destruct (split c_eq (trim_start_matches is_ws s)) as [|k [|v r]]; try discriminate E. rewrite !chars_cons in Q. assert (V := trim_start_length is_ws v).
    destruct (seqb (trim_end_matches is_ws k) (lit "dur")).
    - destruct (parse_float f64_format (trim_start_matches is_ws v)); cbn [ok_or bind] in E; [|discriminate E]. destruct (duration_of nanos_of f); cbn [bind] in E; try discriminate E. injection E as <-. cbn [snd]. lia.
    - destruct (seqb (trim_end_matches is_ws k) (lit "desc")); [|injection E as <-; lia].
      destruct (parse_desc (trim_start_matches is_ws v)) as [x| |] eqn:D; cbn [bind] in E; try discriminate E. injection E as <-. apply parse_desc_size in D. cbn [snd bytes]. lia.
  Qed.
  Lemma params_run_size : forall ps st st', Timing.parse_params nanos_of ps st = Ok st' -> bytes (snd st') <= Nat.max (bytes (snd st)) (chars ps).
  Proof.
    induction ps as [|p ps IH]; cbn [Timing.parse_params]; intros st st' E; [injection E as <-; lia|]. rewrite chars_cons.
    destruct (parse_param nanos_of st p) as [s1| |] eqn:P; cbn [bind] in E; try discriminate E. apply parse_param_size in P. apply IH in E. lia.
  Qed.
  Theorem C99_server_timing : forall h vs l, h_get h (lit "server-timing") = Some vs -> timing_from_headers nanos_of h = Ok (Some l) ->
    length l <= pieces vs /\ list_sum (map metric_size l) <= chars vs.
  Proof.
    intros h vs l G E. apply (with_all_ok _ _ _ _ _ _ E) in G. clear E. destruct (comma_parts_size vs) as [P C].
    cut (length l <= length (comma_parts vs) /\ list_sum (map metric_size l) <= chars (comma_parts vs)); [lia|]. clear P C. revert l G.
    induction (comma_parts vs) as [|p ps IH]; cbn [parse_entries]; intros l E; [injection E as <-; cbn; lia|]. rewrite chars_cons. cbn [length].
    destruct (parse_entry nanos_of p) as [m| |] eqn:M; cbn [with_status bind] in E; try discriminate E.
    destruct (parse_entries nanos_of ps) as [ms| |]; cbn [bind] in E; try discriminate E. injection E as <-. destruct (IH _ eq_refl) as [A B].
    cut (metric_size m <= length p); [intros K; cbn [length map list_sum fold_right]; fold (list_sum (map metric_size ms)); lia|].
    unfold parse_entry in M. destruct (split_count c_semi (trim p)) as [_ Q]. destruct (trim_size p) as [T _].
    destruct (split c_semi (trim p)) as [|n parts]; [discriminate M|]. destruct (Timing.parse_params nanos_of parts (None, None)) as [st| |] eqn:R; cbn [bind] in M; try discriminate M.
    injection M as <-. apply params_run_size in R. cbn [snd] in R. rewrite chars_cons in Q. assert (U := trim_end_size is_ws n). unfold metric_size. cbn [m_name m_desc].
    fold (bytes (snd st)). cbn in R. lia.
  Qed.
End Entries.
Section Origins.
  Context (url : Type) (url_parse : str -> option url) (url_show : url -> str).
  Theorem C99_timing_allow_origin : forall h vs us w, h_get h (lit "timing-allow-origin") = Some vs -> origins_from_headers url_parse h = Ok (Some (us, w)) ->
    length us + b2n w <= pieces vs.
  Proof.
    intros h vs us w G E. apply (with_all_ok _ _ _ _ _ _ E) in G. clear E.
    assert (P : length (flat_map (split c_comma) vs) = pieces vs).
    { clear. induction vs as [|v vs IH]; [reflexivity|]. cbn [flat_map]. rewrite app_length, IH, pieces_cons. destruct (split_count c_comma v) as [A _]. change c_comma with 44%N in *. lia. }
    rewrite <- P. clear P. revert us w G. induction (flat_map (split c_comma) vs) as [|p ps IH]; cbn [origins_read]; intros us w E; [injection E as <- <-; cbn; lia|]. cbn [length].
    destruct (seqb (trim_start_matches is_ws p) (lit "*")).
    - destruct (origins_read url_parse ps) as [[us' w']| |]; cbn [bind] in E; try discriminate E. injection E as <- <-. specialize (IH _ _ eq_refl). cbn [b2n]. lia.
    - destruct (seqb (trim_start_matches is_ws p) (lit """null""")); [specialize (IH _ _ E); lia|].
      destruct (url_parse (trim_start_matches is_ws p)); cbn [ok_or bind] in E; [|discriminate E].
      destruct (origins_read url_parse ps) as [[us' w']| |]; cbn [bind] in E; try discriminate E. injection E as <- <-. specialize (IH _ _ eq_refl). cbn [length]. lia.
  Qed.
End Origins.

(** ** Forwarded *)
Definition field_size (k : nat) (o : option str) : nat := match o with Some v => k + length v | None => 0 end.
Definition fw_size (f : forwarded) : nat :=
  field_size 3 (fw_by f) + list_sum (map (fun v => 4 + length v) (fw_for f)) + field_size 5 (fw_host f) + field_size 6 (fw_proto f).
Lemma parse_token_size : forall s t r, parse_token s = Ok (t, r) -> (match t with Some v => length v | None => 0 end) + length r = length s.
Proof.
  intros s t r E. unfold parse_token in E. destruct (token_end (char_indices 0 s) 0 =? 0)%N; [injection E as <- <-; reflexivity|].
  destruct (split_at s (token_end (char_indices 0 s) 0)) as [[a b]| |] eqn:S; cbn [bind] in E; try discriminate E. injection E as <- <-.
  apply split_at_ok in S as [-> _]. now rewrite app_length.
Qed.
Lemma qs_size : forall n s v r, length s <= n -> qs s = QYes v r -> length v + length r < length s.
Proof.
  induction n as [|n IH]; intros s v r L E; (destruct s as [|c s]; [discriminate E|]); cbn [length] in *; [lia|]. cbn [qs] in E.
  destruct (c =? 92)%N.
  - destruct s as [|d s]; [discriminate E|]. destruct (vchar d); [|discriminate E]. cbn [length] in *. destruct (qs s) as [| |v' r'] eqn:Q; cbn [qcons] in E; try discriminate E.
    injection E as <- <-. apply IH in Q; [|lia]. cbn [length]. lia.
  - destruct (as_u8 c =? 92)%N; [apply IH in E; lia|]. destruct (c =? 34)%N; [injection E as <- <-; cbn [length]; lia|]. destruct (as_u8 c =? 34)%N; [discriminate E|].
    destruct (qdtext (as_u8 c)); [|discriminate E]. destruct (qs s) as [| |v' r'] eqn:Q; cbn [qcons] in E; try discriminate E.
    injection E as <- <-. apply IH in Q; [|lia]. cbn [length]. lia.
Qed.
Lemma parse_quoted_size : forall s v r, parse_quoted_string s = Ok (Some v, r) -> length v + length r <= length s.
Proof.
  intros s v r. rewrite parse_quoted_spec. destruct s as [|c s]; [discriminate|]. destruct (N.eq_dec c 34) as [->|Hne].
  - destruct (qs s) as [| |v' r'] eqn:Q; try discriminate. intros E. injection E as -> ->. apply (qs_size _ _ _ _ (le_n _)) in Q. cbn [length]. lia.
  - intros E. exfalso. destruct c as [|p]; [discriminate E|]. repeat (destruct p as [p|p|]; try discriminate E). now apply Hne.
Qed.
Lemma parse_value_size : forall s v r, parse_value s = Ok (Some v, r) -> length v + length r <= length s.
Proof.
  intros s v r E. unfold parse_value in E. destruct (parse_token s) as [[t x]| |] eqn:T; cbn [bind] in E; try discriminate E. apply parse_token_size in T.
  destruct t as [t|]; [injection E as <- <-; lia|]. apply parse_quoted_size in E. lia.
Qed.
Lemma strip_size : forall p s r, strip_prefix p s = Some r -> length p + length r = length s.
Proof. intros p s r E. apply strip_prefix_some in E as ->. now rewrite app_length. Qed.
Lemma pair_size : forall f s f' r, parse_forwarded_pair f s = Ok (f', r) -> fw_size f' + length r <= fw_size f + length s.
Proof.
  intros f s f' r E. unfold parse_forwarded_pair in E. destruct (parse_token s) as [[t x]| |] eqn:T; cbn [bind] in E; try discriminate E. apply parse_token_size in T.
  destruct t as [key|]; [|discriminate E]. destruct (strip_prefix (lit "=") x) as [y|] eqn:P; [|discriminate E]. apply strip_size in P. change (length (lit "=")) with 1 in P.
  destruct (parse_value y) as [[v z]| |] eqn:V; cbn [bind] in E; try discriminate E. destruct v as [v|]; [|discriminate E]. apply parse_value_size in V.
  match type of E with bind ?m _ = _ => destruct m as [g| |] eqn:M; cbn [bind] in E; try discriminate E end.
  match type of E with Ok (_, ?t) = _ => assert (R : length t <= length z); [|set (z' := t) in *; clearbody z'] end.
  { destruct (strip_prefix (lit ";") z) as [r0|] eqn:S; [apply strip_size in S|]; lia. }
  injection E as <- <-.
  cut (fw_size g <= fw_size f + length key + 1 + length v); [lia|]. clear - M. destruct f as [b fs h p].
  destruct (seqb key (lit "by")) eqn:K1; [apply seqb_eq in K1; subst key|].
  { cbn [fw_by] in M. destruct b; [discriminate M|]. injection M as <-. unfold fw_size. cbn [set_by fw_by fw_for fw_host fw_proto field_size]. change (length (lit "by")) with 2. lia. }
  destruct (seqb key (lit "host")) eqn:K2; [apply seqb_eq in K2; subst key|].
  { cbn [fw_host] in M. destruct h; [discriminate M|]. injection M as <-. unfold fw_size. cbn [set_host fw_by fw_for fw_host fw_proto field_size]. change (length (lit "host")) with 4. lia. }
  destruct (seqb key (lit "proto")) eqn:K3; [apply seqb_eq in K3; subst key|].
  { cbn [fw_proto] in M. destruct p; [discriminate M|]. injection M as <-. unfold fw_size. cbn [set_proto fw_by fw_for fw_host fw_proto field_size]. change (length (lit "proto")) with 5. lia. }
  injection M as <-. lia.
Qed.
Lemma match_size : forall k s r, match_ignore_case k s = Ok (true, r) -> length s = length k + length r.
Proof.
  intros k s r E. unfold match_ignore_case in E. destruct (split_at s (blen k)) as [[a b]| |] eqn:S; cbn [bind] in E; try discriminate E.
  destruct (eq_ignore_case a k) eqn:Q; [|discriminate E]. injection E as <-. apply split_at_ok in S as [-> _]. rewrite app_length. f_equal.
  unfold eq_ignore_case in Q. apply seqb_eq in Q. apply (f_equal (@length N)) in Q. now rewrite !to_lower_length in Q.
Qed.
Lemma for_size : forall fuel f s f' r, parse_for fuel f s = Ok (f', r) -> fw_size f' + length r <= fw_size f + length s.
Proof.
  induction fuel as [|fuel IH]; intros f s f' r; [discriminate|]. cbn [parse_for]. destruct (match_ignore_case (lit "for=") s) as [[[|] x]| |] eqn:M; cbn [bind]; try discriminate.
  apply match_size in M. change (length (lit "for=")) with 4 in M. destruct (parse_value x) as [[v y]| |] eqn:V; cbn [bind]; try discriminate. destruct v as [v|]; [|discriminate].
  apply parse_value_size in V. assert (A : fw_size (add_for f v) = fw_size f + 4 + length v).
  { unfold fw_size. cbn [add_for fw_by fw_for fw_host fw_proto]. rewrite map_app, list_sum_app. set (k := list_sum _). clearbody k. generalize (field_size 3 (fw_by f)), (field_size 5 (fw_host f)), (field_size 6 (fw_proto f)). clear. intros. cbn. lia. }
  destruct y as [|c y]; [intros E; injection E as <- <-; cbn [length] in *; lia|]. cbn [length] in V. destruct (c =? 44)%N.
  - intros E. apply IH in E. assert (T := trim_start_length is_ws y). unfold trim_start in E. lia.
  - destruct (c =? 59)%N; [|discriminate]. intros E. injection E as <- <-. lia.
Qed.
Theorem C99_forwarded : forall s f, fw_parse s = Ok f -> fw_size f <= length s.
Proof.
  intros s f. unfold fw_parse. change (length s) with (fw_size fw_new + length s) at 2. generalize (length s) at 1, fw_new. intros fuel. revert s.
  induction fuel as [|fuel IH]; intros s g; cbn [parse_loop]; (destruct s as [|c s]; [intros E; injection E as ->; cbn [length]; lia|]); [discriminate|].
  destruct (starts_with_ignore_case (lit "for=") (c :: s)) as [b| |]; cbn [bind]; try discriminate.
  match goal with |- bind ?m _ = _ -> _ => destruct m as [[g' r]| |] eqn:M; cbn [bind]; try discriminate end. intros E. apply IH in E.
  destruct b; [apply for_size in M|apply pair_size in M]; lia.
Qed.
Example forwarded_size_met :
  let s := lit "for=192.0.2.43,for=""[::1]"";proto=https;by=""x\y"";secret=1" in
  exists f, fw_parse s = Ok f /\ fw_size f = 14 + 9 + 11 + 5 /\ length s = 56.
Proof. eexists (mkForwarded _ _ _ _). split; [vm_compute; reflexivity|]. split; vm_compute; reflexivity. Qed.

(** ** Credentials *)
Lemma b64_size_n : forall n s bs, length s <= n -> b64_decode s = Some bs -> 4 * length bs <= 3 * length s.
Proof.
  induction n as [|n IH]; intros s bs L E; [destruct s; [cbn in E; injection E as <-; cbn; lia|cbn in L; lia]|].
  assert (One : forall x y l, b64_one x y = Some l -> length l = 1).
  { intros x y l. unfold b64_one. destruct (b64_val x), (b64_val y); try discriminate. match goal with |- context [if ?b then _ else _] => destruct b end; [|discriminate]. intros X. injection X as <-. reflexivity. }
  assert (Two : forall x y z l, b64_two x y z = Some l -> length l = 2).
  { intros x y z l. unfold b64_two. destruct (b64_val x), (b64_val y), (b64_val z); try discriminate. match goal with |- context [if ?b then _ else _] => destruct b end; [|discriminate]. intros X. injection X as <-. reflexivity. }
  assert (Three : forall x y z w l, b64_three x y z w = Some l -> length l = 3).
  { intros x y z w l. unfold b64_three. destruct (b64_val x), (b64_val y), (b64_val z), (b64_val w); try discriminate. intros X. injection X as <-. reflexivity. }
  destruct s as [|x [|y [|z [|w [|v r]]]]]; cbn [b64_decode] in E.
  - injection E as <-. cbn. lia.
  - discriminate E.
  - apply One in E. cbn [length]. lia.
  - destruct (z =? 61)%N; [apply One in E|apply Two in E]; cbn [length]; lia.
  - destruct (w =? 61)%N; [destruct (z =? 61)%N; [apply One in E|apply Two in E]|apply Three in E]; cbn [length]; lia.
  - destruct (b64_three x y z w) as [a|] eqn:T; [|discriminate E]. apply Three in T.
    match type of E with match ?d with _ => _ end = _ => destruct d as [b|] eqn:D; [|discriminate E] end. injection E as <-.
    change (b64_decode (v :: r) = Some b) in D. apply IH in D; [|cbn [length] in *; lia]. rewrite app_length. cbn [length] in *. lia.
Qed.
Lemma b64_size : forall s bs, b64_decode s = Some bs -> 4 * length bs <= 3 * length s.
Proof. intros s bs. exact (b64_size_n _ s bs (le_n _)). Qed.
Theorem C99_authorization : forall v s c, auth_parse v = Ok (s, c) -> length c < length v.
Proof.
  intros v s c E. unfold auth_parse in E. destruct (splitn2 32 v) as [a [b|]] eqn:S; [|discriminate E]. apply splitn2_some in S as [-> _].
  destruct (scheme_from_str a); cbn [bind] in E; try discriminate E. injection E as _ <-. rewrite !app_length. cbn [length]. lia.
Qed.
Theorem C99_www_authenticate : forall v s r, www_parse v = Ok (s, r) -> length r + 9 < length v.
Proof.
  intros v s r E. unfold www_parse in E. destruct (splitn2 32 v) as [a [b|]] eqn:S; [|discriminate E]. apply splitn2_some in S as [-> _].
  destruct (scheme_from_str a) as [sch| |] eqn:F; cbn [bind] in E; try discriminate E. destruct (strip_prefix (lit "realm=""") (trim_start b)) as [q|] eqn:P; [|discriminate E].
  apply strip_size in P. change (length (lit "realm=""")) with 7 in P. assert (T := trim_start_length is_ws b). unfold trim_start in P.
  destruct (existsb (N.eqb 34) q) eqn:X; [|discriminate E]. assert (R : r = take_while (fun c => negb (c =? 34)%N) q) by congruence. rewrite R. clear E R. rewrite !app_length. cbn [length].
  assert (K : length (take_while (fun c => negb (c =? 34)%N) q) + 1 <= length q).
  { clear - X. induction q as [|c q IH]; [discriminate X|]. cbn [take_while length existsb] in *. destruct (N.eqb_spec 34 c) as [He|Hne].
    { replace (c =? 34)%N with true by lia. cbn [negb length]. lia. }
    replace (c =? 34)%N with false by lia. cbn [negb length]. apply IH in X. lia. }
  assert (A : 1 <= length a) by (destruct a; [discriminate F|cbn [length]; lia]). lia.
Qed.
Theorem C99_basic : forall c u p, basic_from_credentials c = Ok (u, p) -> 4 * (length u + 1 + length p) <= 3 * length c.
Proof.
  intros c u p E. unfold basic_from_credentials in E. destruct (b64_decode c) as [bs|] eqn:D; cbn [ok_or bind] in E; [|discriminate E].
  destruct (utf8_decode bs) as [t|] eqn:U; cbn [ok_or bind] in E; [|discriminate E]. destruct (splitn2 58 t) as [x [y|]] eqn:S; [|discriminate E]. injection E as -> ->.
  apply splitn2_some in S as [-> _]. apply utf8_decode_sound in U as [<- _]. apply b64_size in D.
  assert (K : forall s, length s <= length (utf8_encode s)).
  { clear. intros s. unfold utf8_encode. induction s as [|a s IH]; [cbn; lia|]. cbn [flat_map]. rewrite app_length. cbn [length].
    assert (1 <= length (utf8_char a)); [|lia]. unfold utf8_char. destruct (a <? 128)%N; [cbn; lia|]. destruct (a <? 2048)%N; [cbn; lia|]. destruct (a <? 65536)%N; cbn; lia. }
  specialize (K (u ++ [58%N] ++ p)). rewrite !app_length in K. cbn [length] in K. lia.
Qed.
Example lists_size_met :
  cache_from_headers [(lit "cache-control", [lit "no-cache, max-age=60,"])] = Ok (Some [NoCache; MaxAge (from_secs 60)]) /\ pieces [lit "no-cache, max-age=60,"] = 3 /\
  allow_from_headers [(lit "allow", [lit "GET, PUT"; lit "GET"])] = Ok (Some [M_Put; M_Get]) /\ pieces [lit "GET, PUT"; lit "GET"] = 3 /\
  clear_from_headers [(lit "clear-site-data", [lit """cache"", ""*"""])] = Ok (Some ([ClearCache], true)) /\
  (match accept_from_headers Content [(lit "accept-encoding", [lit "gzip;q=0.5, zzz, *"])] with Ok (Some (l, w)) => length l = 1 /\ w = true | _ => False end) /\
  (match timing_from_headers (fun v => 0%N) [(lit "server-timing", [lit "a;desc=b;desc=""cd"", e"])] with Ok (Some l) => map metric_size l = [3; 1] | _ => False end) /\
  origins_from_headers (fun s => Some s) [(lit "timing-allow-origin", [lit "https://a.b, *"])] = Ok (Some ([lit "https://a.b"], true)).
Proof. vm_compute. repeat split; reflexivity. Qed.
Example credentials_size_met :
  auth_parse (lit "Basic dTpwdw==") = Ok (Basic, lit "dTpwdw==") /\ basic_from_credentials (lit "dTpwdw==") = Ok (lit "u", lit "pw") /\
  www_parse (lit "Basic realm=""x"", charset=""UTF-8""") = Ok (Basic, lit "x").
Proof. vm_compute. auto. Qed.
Print Assumptions C99_conditions.
Print Assumptions C99_vary.
Print Assumptions C99_cache_control.
Print Assumptions C99_allow.
Print Assumptions C99_codings.
Print Assumptions C99_media_type.
Print Assumptions C99_accept.
Print Assumptions C99_clear_site_data.
Print Assumptions C99_server_timing.
Print Assumptions C99_timing_allow_origin.
Print Assumptions C99_forwarded.
Print Assumptions C99_authorization.
Print Assumptions C99_www_authenticate.
Print Assumptions C99_basic.
