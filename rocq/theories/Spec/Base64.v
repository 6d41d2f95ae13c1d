(** RFC 4648 base64, the contract assumed of OpenSSL's base64 filter, and
    hexadecimal rendering.  No model imports. *)
From Coq Require Import String ZArith List Bool.
From Verif Require Import Base.
Import ListNotations.
Open Scope Z_scope.

(** RFC 4648 table 1. *)
Definition b64_char (v : Z) : Z :=
  if v <? 26 then 65 + v
  else if v <? 52 then 97 + (v - 26)
  else if v <? 62 then 48 + (v - 52)
  else if v =? 62 then 43 else 47.

(** RFC 4648 section 4: 24-bit groups; '=' padding. *)
Fixpoint b64_encode (d : bytes) : bytes :=
  match d with
  | [] => []
  | [a] => [b64_char (a / 4); b64_char (a mod 4 * 16); 61; 61]
  | [a; b] => [b64_char (a / 4); b64_char (a mod 4 * 16 + b / 16); b64_char (b mod 16 * 4); 61]
  | a :: b :: c :: t =>
    b64_char (a / 4) :: b64_char (a mod 4 * 16 + b / 16)
    :: b64_char (b mod 16 * 4 + c / 64) :: b64_char (c mod 64) :: b64_encode t
  end.

(** 64-character lines, each ended by LF (the format OpenSSL writes). *)
Fixpoint b64_lines (fuel : nat) (s : bytes) : bytes :=
  match fuel with
  | O => []
  | S f => match s with
           | [] => []
           | _ => firstn 64 s ++ [10] ++ b64_lines f (skipn 64 s)
           end
  end.
Definition b64_wrap (s : bytes) : bytes := b64_lines (List.length s) s.

(** Decoding. *)
Definition b64_val (c : Z) : option Z :=
  if (65 <=? c) && (c <=? 90) then Some (c - 65)
  else if (97 <=? c) && (c <=? 122) then Some (c - 71)
  else if (48 <=? c) && (c <=? 57) then Some (c + 4)
  else if c =? 43 then Some 62 else if c =? 47 then Some 63 else None.

Fixpoint b64_decode (s : bytes) : option bytes :=
  match s with
  | [] => Some []
  | a :: b :: c :: d :: t =>
    match b64_val a, b64_val b with
    | Some x, Some y =>
      if (c =? 61) && (d =? 61) then
        match t with [] => Some [x * 4 + y / 16] | _ => None end
      else match b64_val c with
           | Some z =>
             if d =? 61 then
               match t with [] => Some [x * 4 + y / 16; y mod 16 * 16 + z / 4] | _ => None end
             else match b64_val d, b64_decode t with
                  | Some w, Some r =>
                    Some (x * 4 + y / 16 :: y mod 16 * 16 + z / 4 :: z mod 4 * 64 + w :: r)
                  | _, _ => None
                  end
           | None => None
           end
    | _, _ => None
    end
  | _ => None
  end.

(** What is assumed of BIO_read on a base64 filter over a memory BIO
    (OpenSSL, external).  The flag is BIO_FLAGS_BASE64_NO_NL; the number is the
    size of the output buffer; a failed read returns no bytes.  It never
    returns more than asked for, and it decodes the three formats an encoder
    writes: one line, one line with its LF, 64-character lines. *)
Record b64_bio (bio : bool -> bytes -> Z -> bytes) : Prop := {
  bio_len : forall f s n, 0 <= n -> len (bio f s n) <= n;
  bio_bytes : forall f s n, all_bytes (bio f s n);
  bio_line : forall d n, all_bytes d -> len d <= n -> bio true (b64_encode d) n = d;
  bio_line_lf : forall d n, all_bytes d -> len d <= n -> bio true (b64_encode d ++ [10]) n = d;
  bio_lines : forall d n, all_bytes d -> len d <= n -> bio false (b64_wrap (b64_encode d)) n = d
}.

(** Lower-case hexadecimal rendering. *)
Definition hex_digit (v : Z) : Z := nth (Z.to_nat v) (str "0123456789abcdef") 0.
Definition hex_string (d : bytes) : bytes :=
  flat_map (fun b => [hex_digit (b / 16); hex_digit (b mod 16)]) d.

(** Length of the base64 text of [n] bytes: four characters per started group
    of three, and with line feeds one more per started 64 characters. *)
Definition b64_text_len (n : Z) (lines : bool) : Z :=
  let c := 4 * ((n + 2) / 3) in if lines then c + (c + 63) / 64 else c.
