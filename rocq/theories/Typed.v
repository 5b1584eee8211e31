(** What the typed headers share: writing one value under the header's name, reading the last value, and the
    comma separated lists with an optional wildcard. *)
From Verif Require Import Base Headers.

(** src/headers/header.rs:15-22 [apply_header]; also [insert_header(&t, &t)], because
    src/headers/to_header_values.rs:18-24 turns a typed header into the one value [header_value()].  The value is already a
    [HeaderValue], so nothing is checked and the [unwrap] cannot fail. *)
Definition apply_value (h : headers) (n v : str) : headers := fst (h_insert h n (TvValues [v])).

(** The opening lines of most [from_headers]: [None] when the header is missing, else the last value
    ([headers.iter().last().unwrap()], which panics when the stored list is empty).  src/conditional/etag.rs:58-67 and its siblings. *)
Definition with_last {A} (h : headers) (n : str) (k : str -> outcome A) : outcome (option A) :=
  match h_get h n with
  | None => Ok None
  | Some vs => let* v := values_last vs in let* a := k v in Ok (Some a)
  end.

(** The opening lines of the list-valued [from_headers]: all values, in order.  src/conditional/if_match.rs:54-74 and its siblings. *)
Definition with_all {A} (h : headers) (n : str) (k : header_values -> outcome A) : outcome (option A) :=
  match h_get h n with
  | None => Ok None
  | Some vs => let* a := k vs in Ok (Some a)
  end.

(** [for value in headers { for part in value.as_str().trim().split(',') {...} }].  src/conditional/if_match.rs:62-66 and its siblings. *)
Definition comma_parts (vs : header_values) : list str := flat_map (fun v => split c_comma (trim v)) vs.

(** The loop body shared by src/conditional/if_match.rs:62-72, src/conditional/if_none_match.rs:68-78, src/conditional/vary.rs:62-73 and
    src/cache/clear_site_data/mod.rs:71-79: [star] sets the wildcard flag, everything else is parsed. *)
Fixpoint read_parts {A} (star : str) (parse : str -> outcome A) (parts : list str) : outcome (list A * bool) :=
  match parts with
  | [] => Ok ([], false)
  | p :: ps =>
      if seqb (trim p) star then
        let* (es, _) := read_parts star parse ps in Ok (es, true)
      else
        let* e := parse (trim p) in let* (es, w) := read_parts star parse ps in Ok (e :: es, w)
  end.

(** The writing loop shared by src/conditional/if_match.rs:110-128, src/conditional/if_none_match.rs:116-134, src/conditional/vary.rs:118-135 and
    src/cache/clear_site_data/mod.rs:219-237: entries separated by [", "], then the wildcard ([output.len() == 0]
    decides about the comma). *)
Definition list_value (star : str) (entries : list str) (wildcard : bool) : str :=
  let output := join (lit ", ") entries in
  if wildcard then
    match output with [] => star | _ => output ++ lit ", " ++ star end
  else output.
