(** Header objects changed by their setters: security/strict_transport_security.rs, auth/{authorization,www_authenticate}.rs,
    proxies/forwarded.rs, content/content_length.rs, and the headers that hold one URL. *)
From Verif Require Import Base Cache Other Auth Forwarded.

(** ** security/strict_transport_security.rs *)
(** src/security/strict_transport_security.rs:20-31 *)
Definition hsts_policy_default : hsts := Hsts (from_secs 31536000) false true.
(** src/security/strict_transport_security.rs:35-41, [From<Duration>]: src/security/strict_transport_security.rs:155-159 *)
Definition hsts_new (d : duration) : hsts := Hsts d false false.
(** The setters of src/security/strict_transport_security.rs:47-71. *)
Inductive hsts_set : Type := SetAge (d : duration) | SetSubdomains (b : bool) | SetPreload (b : bool).
(** src/security/strict_transport_security.rs:48-50, 58-60, 68-70 *)
Definition hsts_do (s : hsts) (c : hsts_set) : hsts :=
  match c with
  | SetAge d => Hsts d (include_subdomains s) (preload s)
  | SetSubdomains b => Hsts (max_age s) b (preload s)
  | SetPreload b => Hsts (max_age s) (include_subdomains s) b
  end.

(** ** auth/authorization.rs, auth/www_authenticate.rs *)
(** The setters of src/auth/authorization.rs:79-93 and src/auth/www_authenticate.rs:101-115: the text is the credentials or the
    realm. *)
Inductive auth_set : Type := SetScheme (s : scheme) | SetText (t : str).
(** src/auth/authorization.rs:80-82, 90-92; src/auth/www_authenticate.rs:102-104, 112-114. *)
Definition auth_do (a : scheme * str) (c : auth_set) : scheme * str :=
  match c with SetScheme s => (s, snd a) | SetText t => (fst a, t) end.

(** ** proxies/forwarded.rs *)
(** The setters of src/proxies/forwarded.rs:320-354. *)
Inductive fw_set : Type := AddFor (v : str) | SetHost (v : str) | SetProto (v : str) | SetBy (v : str).
(** src/proxies/forwarded.rs:320-354 *)
Definition fw_do (f : forwarded) (c : fw_set) : forwarded :=
  match c with AddFor v => add_for f v | SetHost v => set_host f v | SetProto v => set_proto f v | SetBy v => set_by f v end.
(** src/proxies/forwarded.rs:302-312: each borrowed text is replaced by its owned copy. *)
Definition into_owned (own : str -> str) (f : forwarded) : forwarded :=
  mkForwarded (option_map own (fw_by f)) (map own (fw_for f)) (option_map own (fw_host f)) (option_map own (fw_proto f)).

(** ** extensions.rs *)
(** The hasher of src/extensions.rs:87-103.  [write] is [unreachable!()]. *)
Inductive hash_call : Type := Write (bytes : list N) | WriteU64 (id : N).
(** src/extensions.rs:89-98 *)
Definition hash_do (st : outcome N) (c : hash_call) : outcome N :=
  let* _ := st in match c with Write _ => Panic | WriteU64 id => Ok id end.
