(** C library and Safe-C stub functions used by the modelled code. *)
From Coq Require Import String ZArith List Bool.
From Verif Require Import Base.
Import ListNotations.
Open Scope Z_scope.

Definition LLONG_MAX : Z := 9223372036854775807.
Definition LLONG_MIN : Z := -9223372036854775808.
Definition INT_MAX : Z := 2147483647.

(** Decimal accumulation over a digit prefix (ISO C strtoll, base 10, before
    clamping). *)
Fixpoint dec_acc (acc : Z) (s : bytes) : Z :=
  match s with
  | c :: t => if isdigit c then dec_acc (acc * 10 + (c - 48)) t else acc
  | [] => acc
  end.

(** strtoll(s, NULL, 10) (ISO C 7.22.1.4; external): skip white space, optional
    sign, digits; out-of-range values are clamped; no digits gives 0. *)
Definition strtoll (s : bytes) : Z :=
  let t := drop_while isspace s in
  let v := match t with
           | 45 :: u => - dec_acc 0 u
           | 43 :: u => dec_acc 0 u
           | _ => dec_acc 0 t
           end in
  if LLONG_MAX <? v then LLONG_MAX else if v <? LLONG_MIN then LLONG_MIN else v.

(** Conversion of a long to int (two's complement wrap, as on all supported
    platforms). *)
Definition to_int (v : Z) : Z := (v + 2147483648) mod 4294967296 - 2147483648.

(** atoi(s) = (int)strtol(s, NULL, 10) (glibc; external). *)
Definition atoi (s : bytes) : Z := to_int (strtoll s).

(** strncmp(s, lit, n) == 0 for a C string [s]: the bytes agree up to the first
    NUL or n bytes.  [strncmp_eq] compares two C strings (without their NUL). *)
Fixpoint strncmp_eq (n : nat) (a b : bytes) : bool :=
  match n with
  | O => true
  | S n' =>
    match a, b with
    | [], [] => true
    | x :: a', y :: b' => (x =? y) && strncmp_eq n' a' b'
    | _, _ => false
    end
  end.

(** memcmp over [n] bytes of two blocks; reading outside a block is [UB]. *)
Definition memcmp_eq (a b : bytes) (n : Z) : res bool :=
  if (n <=? len a) && (n <=? len b)
  then Ok (beq (firstn (Z.to_nat n) a) (firstn (Z.to_nat n) b))
  else UB.

(** strchr-style split: text before the first [c], and whether [c] occurs. *)
Definition before_char (c : Z) (s : bytes) : bytes := take_while (fun x => negb (x =? c)) s.

(** strncpy(dest, src, dmax) into a block of at least [dmax] bytes: what the
    first [dmax] bytes of dest hold afterwards (NUL padded, and NOT
    NUL-terminated when src has dmax or more characters).
    safe_c_stub/src/safe_str_stub.c:307-312 strcpy_s maps to this. *)
Definition strncpy_img (src : bytes) (dmax : Z) : bytes :=
  firstn (Z.to_nat dmax) (src ++ repeat 0 (Z.to_nat dmax)).

(** strndup(s, n): at most [n] characters. *)
Definition strndup (s : bytes) (n : Z) : bytes := firstn (Z.to_nat n) s.

(** printf("%d", z) (external: decimal numeral, most significant digit first). *)
Fixpoint dec_digits (fuel : nat) (z : Z) (acc : bytes) : bytes :=
  match fuel with
  | O => acc
  | S f => let acc' := (48 + z mod 10) :: acc in
           if z <? 10 then acc' else dec_digits f (z / 10) acc'
  end.
Definition print_int (z : Z) : bytes :=
  if z <? 0 then 45 :: dec_digits (S (Z.to_nat (Z.log2 (- z)))) (- z) []
  else dec_digits (S (Z.to_nat (Z.log2 z))) z [].
