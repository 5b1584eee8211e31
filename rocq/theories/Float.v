(** std floats, as far as the crate uses them: parsing decimal text, comparing, printing with three decimals.
    A finite value is an integer number of units of the smallest positive value of its format, so no rounding
    happens except where the standard rounds (nearest, ties to even). *)
From Verif Require Import Base.

(** Precision in bits, exponent of the unit (1 unit = 2^-unit), exponent of the overflow threshold. *)
Record format : Type := Format { prec : N; unit : N; emax : N }.
(** [f32]. *)
Definition f32_format : format := Format 24 149 128.
(** [f64]. *)
Definition f64_format : format := Format 53 1074 1024.

(** A value of either type. *)
Inductive float : Type :=
| NaN (neg : bool)
| Inf (neg : bool)
| Fin (neg : bool) (v : N).

(** [a / b] rounded to the nearest integer, ties to even. *)
Definition rhe (a b : N) : N :=
  let q := a / b in
  let r := a mod b in
  if (2 * r <? b) || ((2 * r =? b) && N.even q) then q else q + 1.

(** The float nearest to the non-negative rational [p / q], ties to even. *)
Definition round_ratio (f : format) (neg : bool) (p q : N) : float :=
  let n := p * 2 ^ unit f in
  let g := 2 ^ (N.log2 (n / q) - (prec f - 1)) in
  let v := g * rhe n (q * g) in
  if v <? 2 ^ (emax f + unit f) then Fin neg v else Inf neg.

(** The value 1.0. *)
Definition one (f : format) : N := 2 ^ unit f.

(** [is_sign_positive], [is_sign_negative] *)
Definition sign_positive (x : float) : bool :=
  match x with NaN n | Inf n | Fin n _ => negb n end.

(** [PartialOrd::partial_cmp]: +0 and -0 are equal, NaN is not comparable. *)
Definition fcmp (x y : float) : option comparison :=
  match x, y with
  | NaN _, _ | _, NaN _ => None
  | Inf a, Inf b => Some (match a, b with true, false => Lt | false, true => Gt | _, _ => Eq end)
  | Inf true, Fin _ _ => Some Lt
  | Inf false, Fin _ _ => Some Gt
  | Fin _ _, Inf true => Some Gt
  | Fin _ _, Inf false => Some Lt
  | Fin a v, Fin b w =>
      Some (match a, b with
            | false, false => N.compare v w
            | true, true => N.compare w v
            | false, true => if (v =? 0) && (w =? 0) then Eq else Gt
            | true, false => if (v =? 0) && (w =? 0) then Eq else Lt
            end)
  end.
(** [<=] on floats. *)
Definition fle (x y : float) : bool :=
  match fcmp x y with Some Lt | Some Eq => true | _ => false end.

(** [FromStr] for floats: optional sign, then digits with an optional fraction and exponent, or (in any case)
    "inf", "infinity", "nan". *)
Definition digit_run (s : str) : str * str := (take_while is_digit s, drop_while is_digit s).
(** The number a run of decimal digits stands for. *)
Definition dec_val (ds : str) : N := fold_left (fun a c => a * 10 + (c - 48)) ds 0.
(** An optional sign. *)
Definition take_sign (s : str) : bool * str :=
  match s with
  | c :: r => if c =? 45 then (true, r) else if c =? 43 then (false, r) else (false, s)
  | [] => (false, s)
  end.
(** Digits and decimal exponent. *)
Definition parse_exp (s : str) : option Z :=
  match s with
  | [] => Some 0%Z
  | c :: r =>
      if (c =? 101) || (c =? 69) then
        let (neg, r) := take_sign r in
        match digit_run r with
        | ([], _) => None
        | (ds, []) => Some (if neg then (- Z.of_N (dec_val ds))%Z else Z.of_N (dec_val ds))
        | (_, _) => None
        end
      else None
  end.
(** Digits, fraction and exponent of a float literal. *)
Definition parse_number (s : str) : option (N * Z) :=
  let (a, r) := digit_run s in
  let (b, r) := match r with c :: r' => if c =? 46 then digit_run r' else ([], r) | [] => ([], r) end in
  match a ++ b with
  | [] => None
  | ds => match parse_exp r with
          | Some e => Some (dec_val ds, (e - Z.of_nat (length b))%Z)
          | None => None
          end
  end.
(** [f32::from_str], [f64::from_str], called at src/utils/mod.rs:28 and src/trace/server_timing/parse.rs:60-66. *)
Definition parse_float (f : format) (s : str) : option float :=
  let (neg, s) := take_sign s in
  match parse_number s with
  | Some (d, e) =>
      Some (if (0 <=? e)%Z then round_ratio f neg (d * 10 ^ Z.to_N e) 1
            else round_ratio f neg d (10 ^ Z.to_N (- e)))
  | None =>
      let l := to_lower s in
      if seqb l (lit "inf") || seqb l (lit "infinity") then Some (Inf neg)
      else if seqb l (lit "nan") then Some (NaN neg)
      else None
  end.

(** [{:.3}]: the exact value rounded to thousandths, ties to even. *)
Definition thousandths (f : format) (v : N) : N := rhe (v * 1000) (2 ^ unit f).
(** A number of thousandths with its decimal point. *)
Definition show_milli (k : N) : str :=
  show_dec (k / 1000) ++ [46; 48 + k / 100 mod 10; 48 + k / 10 mod 10; 48 + k mod 10].
(** [{:.3}], src/content/encoding_proposal.rs:117-122 and its siblings. *)
Definition show3 (f : format) (x : float) : str :=
  match x with
  | NaN _ => lit "NaN"
  | Inf n => (if n then lit "-" else []) ++ lit "inf"
  | Fin n v => (if n then lit "-" else []) ++ show_milli (thousandths f v)
  end.
