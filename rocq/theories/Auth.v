(** src/auth: authentication schemes, Authorization, Basic, WWW-Authenticate. *)
From Verif Require Import Base Utf8 Headers Typed.

(** ** auth/authentication_scheme.rs *)
(** src/auth/authentication_scheme.rs:9-30 *)
Inductive scheme : Type :=
| Basic | Bearer | Digest | Hoba | Mutual | Negotiate | OAuth | ScramSha1 | ScramSha256 | Vapid.
(** src/auth/authentication_scheme.rs:32-47 *)
Definition scheme_show (s : scheme) : str :=
  match s with
  | Basic => lit "Basic" | Bearer => lit "Bearer" | Digest => lit "Digest" | Hoba => lit "HOBA"
  | Mutual => lit "Mutual" | Negotiate => lit "Negotiate" | OAuth => lit "OAuth"
  | ScramSha1 => lit "SCRAM-SHA-1" | ScramSha256 => lit "SCRAM-SHA-256" | Vapid => lit "vapid"
  end.
(** src/auth/authentication_scheme.rs:49-71.  No name has a "k", so ASCII lower-casing decides like [str::to_lowercase] (see Cache.v). *)
Definition scheme_from_str (s : str) : outcome scheme :=
  let l := to_lower s in
  if seqb l (lit "basic") then Ok Basic
  else if seqb l (lit "bearer") then Ok Bearer
  else if seqb l (lit "digest") then Ok Digest
  else if seqb l (lit "hoba") then Ok Hoba
  else if seqb l (lit "mutual") then Ok Mutual
  else if seqb l (lit "negotiate") then Ok Negotiate
  else if seqb l (lit "oauth") then Ok OAuth
  else if seqb l (lit "scram-sha-1") then Ok ScramSha1
  else if seqb l (lit "scram-sha-256") then Ok ScramSha256
  else if seqb l (lit "vapid") then Ok Vapid
  else Err 400.

(** ** auth/authorization.rs *)
(** src/headers/constants.rs (AUTHORIZATION); src/auth/authorization.rs:96-98. *)
Definition AUTHORIZATION : str := lit "authorization".
(** src/auth/authorization.rs:60-71, with [splitn(2, ' ')]. *)
Definition auth_parse (v : str) : outcome (scheme * str) :=
  match splitn2 32 v with
  | (s, Some c) => let* sch := scheme_from_str s in Ok (sch, c)
  | (_, None) => Err 400
  end.
(** src/auth/authorization.rs:49-72 *)
Definition auth_from_headers (h : headers) : outcome (option (scheme * str)) := with_last h AUTHORIZATION auth_parse.
(** src/auth/authorization.rs:100-105 *)
Definition auth_value (a : scheme * str) : str := scheme_show (fst a) ++ [32] ++ snd a.
(** src/headers/header.rs:15-22 with src/auth/authorization.rs:95-106. *)
Definition auth_apply (h : headers) (a : scheme * str) : headers := apply_value h AUTHORIZATION (auth_value a).

(** ** The base64 crate (0.13, standard alphabet), a dependency: [encode] pads; [decode] accepts padded and
    unpadded input, refuses anything outside the alphabet and non-zero trailing bits. *)
(** base64 0.13 (dependency), called at src/auth/basic_auth.rs:74 and 107. *)
Definition b64_char (i : N) : N :=
  if i <? 26 then 65 + i else if i <? 52 then 71 + i else if i <? 62 then i - 4 else if i =? 62 then 43 else 47.
(** base64 0.13, the inverse alphabet (src/auth/basic_auth.rs:74). *)
Definition b64_val (c : N) : option N :=
  if is_upper c then Some (c - 65)
  else if is_lower c then Some (c - 71)
  else if is_digit c then Some (c + 4)
  else if c =? 43 then Some 62
  else if c =? 47 then Some 63
  else None.
(** base64 0.13 [encode], called at src/auth/basic_auth.rs:107. *)
Fixpoint b64_encode (bs : list N) : str :=
  match bs with
  | [] => []
  | [a] => [b64_char (a / 4); b64_char (a mod 4 * 16); 61; 61]
  | [a; b] => [b64_char (a / 4); b64_char (a mod 4 * 16 + b / 16); b64_char (b mod 16 * 4); 61]
  | a :: b :: c :: r =>
      b64_char (a / 4) :: b64_char (a mod 4 * 16 + b / 16) :: b64_char (b mod 16 * 4 + c / 64)
      :: b64_char (c mod 64) :: b64_encode r
  end.
(** The last, possibly incomplete or padded group.  base64 0.13 [decode]: two characters of the last group. *)
Definition b64_one (x y : N) : option (list N) :=
  match b64_val x, b64_val y with
  | Some x, Some y => if y mod 16 =? 0 then Some [x * 4 + y / 16] else None
  | _, _ => None
  end.
(** base64 0.13 [decode]: three characters of the last group. *)
Definition b64_two (x y z : N) : option (list N) :=
  match b64_val x, b64_val y, b64_val z with
  | Some x, Some y, Some z => if z mod 4 =? 0 then Some [x * 4 + y / 16; y mod 16 * 16 + z / 4] else None
  | _, _, _ => None
  end.
(** base64 0.13 [decode]: a full group. *)
Definition b64_three (x y z w : N) : option (list N) :=
  match b64_val x, b64_val y, b64_val z, b64_val w with
  | Some x, Some y, Some z, Some w => Some [x * 4 + y / 16; y mod 16 * 16 + z / 4; z mod 4 * 64 + w]
  | _, _, _, _ => None
  end.
(** base64 0.13 [decode], called at src/auth/basic_auth.rs:74. *)
Fixpoint b64_decode (s : str) : option (list N) :=
  match s with
  | [] => Some []
  | [_] => None
  | [x; y] => b64_one x y
  | [x; y; z] => if z =? 61 then b64_one x y else b64_two x y z
  | [x; y; z; w] =>
      if w =? 61 then (if z =? 61 then b64_one x y else b64_two x y z) else b64_three x y z w
  | x :: y :: z :: w :: r =>
      match b64_three x y z w, b64_decode r with
      | Some a, Some b => Some (a ++ b)
      | _, _ => None
      end
  end.

(** ** auth/basic_auth.rs *)
(** src/auth/basic_auth.rs:73-88 [from_credentials].  The credentials are text here; a character outside ASCII is outside the alphabet
    like every byte of its encoding. *)
Definition basic_from_credentials (c : str) : outcome (str * str) :=
  let* bytes := ok_or 400 (b64_decode c) in
  let* text := ok_or 400 (utf8_decode bytes) in
  match splitn2 58 text with
  | (u, Some p) => Ok (u, p)
  | (_, None) => Err 400
  end.
(** src/auth/basic_auth.rs:56-70 *)
Definition basic_from_headers (h : headers) : outcome (option (str * str)) :=
  let* a := auth_from_headers h in
  match a with
  | None => Ok None
  | Some (Basic, c) => let* r := basic_from_credentials c in Ok (Some r)
  | Some _ => Err 400
  end.
(** src/auth/basic_auth.rs:100-111 *)
Definition basic_apply (h : headers) (up : str * str) : headers :=
  auth_apply h (Basic, b64_encode (utf8_encode (fst up ++ [58] ++ snd up))).

(** ** auth/www_authenticate.rs *)
(** src/auth/www_authenticate.rs:118-120. *)
Definition WWW_AUTHENTICATE : str := lit "www-authenticate".
(** src/auth/www_authenticate.rs:63-94: [splitn(2, ' ')], then realm="..." up to the next quote. *)
Definition www_parse (v : str) : outcome (scheme * str) :=
  match splitn2 32 v with
  | (s, Some r) =>
      let* sch := scheme_from_str s in
      match strip_prefix (lit "realm=""") (trim_start r) with
      | None => Err 400
      | Some q =>
          let realm := take_while (fun c => negb (c =? 34)) q in
          if existsb (N.eqb 34) q then Ok (sch, realm) else Err 400
      end
  | (_, None) => Err 400
  end.
(** src/auth/www_authenticate.rs:52-94 *)
Definition www_from_headers (h : headers) : outcome (option (scheme * str)) := with_last h WWW_AUTHENTICATE www_parse.
(** src/auth/www_authenticate.rs:122-127 *)
Definition www_value (a : scheme * str) : str :=
  scheme_show (fst a) ++ lit " realm=""" ++ snd a ++ lit """, charset=""UTF-8""".
(** src/headers/header.rs:15-22 with src/auth/www_authenticate.rs:117-128. *)
Definition www_apply (h : headers) (a : scheme * str) : headers := apply_value h WWW_AUTHENTICATE (www_value a).
