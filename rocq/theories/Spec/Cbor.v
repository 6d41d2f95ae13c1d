(** CBOR (RFC 8949) with definite lengths: unsigned integers, byte strings and
    arrays.  No model imports. *)
From Coq Require Import ZArith List Bool.
From Verif Require Import Base.
Import ListNotations.
Open Scope Z_scope.

Inductive item :=
| UInt (n : Z)
| BStr (b : bytes)
| Arr (l : list item).

(** Big-endian number. *)
Definition big_endian (b : bytes) : Z := fold_left (fun n x => n * 256 + x) b 0.

Definition take (n : Z) (s : bytes) : option (bytes * bytes) :=
  if n <=? len s then Some (firstn (Z.to_nat n) s, skipn (Z.to_nat n) s) else None.

(** RFC 8949 section 3: major type and argument of an item. *)
Definition head (s : bytes) : option (Z * Z * bytes) :=
  match s with
  | [] => None
  | b :: t =>
    let info := b mod 32 in
    let arg k := match take k t with
                 | Some (a, r) => Some (b / 32, big_endian a, r)
                 | None => None
                 end in
    if info <? 24 then Some (b / 32, info, t)
    else if info =? 24 then arg 1
    else if info =? 25 then arg 2
    else if info =? 26 then arg 4
    else if info =? 27 then arg 8
    else None
  end.

(** One item and what follows it.  [depth] bounds the nesting of arrays. *)
Fixpoint decode (depth : nat) (s : bytes) : option (item * bytes) :=
  match head s with
  | None => None
  | Some (major, n, r) =>
    if major =? 0 then Some (UInt n, r)
    else if major =? 2 then
      match take n r with Some (b, r') => Some (BStr b, r') | None => None end
    else if major =? 4 then
      match depth with
      | O => None
      | S d =>
        let fix items (k : nat) (s : bytes) : option (list item * bytes) :=
          match k with
          | O => Some ([], s)
          | S k' => match decode d s with
                    | None => None
                    | Some (i, s') => match items k' s' with
                                      | None => None
                                      | Some (l, s'') => Some (i :: l, s'')
                                      end
                    end
          end in
        match items (Z.to_nat n) r with Some (l, r') => Some (Arr l, r') | None => None end
      end
    else None
  end.

(** The whole of [s] is one item. *)
Definition cbor (s : bytes) (i : item) : Prop := decode 1 s = Some (i, []).

(** Octets of a byte string of [n] bytes, and of the key generation payload: an
    array of four items, two of them 16-bit integers. *)
Definition bstr_size (n : Z) : Z :=
  n + (if n <? 24 then 1 else if n <? 256 then 2 else if n <? 65536 then 3 else if n <? 4294967296 then 5 else 9).
Definition keygen_size (key cert : bytes) : Z :=
  1 + 3 + bstr_size (len key) + 3 + bstr_size (len cert).
