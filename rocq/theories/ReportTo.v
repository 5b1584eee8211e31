(** Model of the [report-to] texts of src/security/csp.rs: what serde_json writes for [ReportTo]. *)
From Verif Require Import Base Security.
From Coq Require Import ZArith.

(** src/security/csp.rs:80-90 [ReportTo]; [ReportToEndpoint] (95-100) is its [url].  The fields are private and there is
    no constructor: values come from [Deserialize] only. *)
Record report : Type := Report { group : option str; max_age : Z; endpoints : list str; include_subdomains : option bool }.

(** A lower-case hexadecimal digit. *)
Definition hex_char (n : N) : N := if n <? 10 then 48 + n else 87 + n.
(** serde_json's escaping (external; trusted base): the double quote, the backslash and what is below the space, and nothing else. *)
Definition json_char (c : N) : str :=
  if c =? 34 then [92; 34] else if c =? 92 then [92; 92]
  else if c =? 8 then [92; 98] else if c =? 9 then [92; 116] else if c =? 10 then [92; 110]
  else if c =? 12 then [92; 102] else if c =? 13 then [92; 114]
  else if c <? 32 then lit "\u00" ++ [hex_char (c / 16); hex_char (c mod 16)]
  else [c].
(** A string, quoted. *)
Definition json_str (s : str) : str := [34] ++ flat_map json_char s ++ [34].
(** An [i32]. *)
Definition json_int (z : Z) : str := if (z <? 0)%Z then 45 :: show_dec (Z.to_N (- z)) else show_dec (Z.to_N z).
(** The derived [Serialize] of src/security/csp.rs:80-100: fields in order of declaration, the two optional ones left out when absent. *)
Definition report_fields (r : report) : list str :=
  match group r with Some g => [json_str (lit "group") ++ [58] ++ json_str g] | None => [] end ++
  [json_str (lit "max_age") ++ [58] ++ json_int (max_age r);
   json_str (lit "endpoints") ++ [58] ++ lit "[" ++ join [44] (map (fun u => lit "{" ++ json_str (lit "url") ++ [58] ++ json_str u ++ lit "}") (endpoints r)) ++ lit "]"] ++
  match include_subdomains r with Some b => [json_str (lit "include_subdomains") ++ [58] ++ (if b then lit "true" else lit "false")] | None => [] end.
Definition report_json (r : report) : str := lit "{" ++ join [44] (report_fields r) ++ lit "}".
(** src/security/csp.rs:284-299 [report_to]: serialising such a value does not fail, so the error branch is not taken. *)
Definition report_to (rs : list report) : call := ReportTo (map (fun r => Some (report_json r)) rs).
