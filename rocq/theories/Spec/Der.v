(** ASN.1 elements: BER headers, DER trees, and what is assumed of OpenSSL's
    header reader.  No model imports. *)
From Coq Require Import String ZArith List Bool.
From Verif Require Import Base.
Import ListNotations.
Open Scope Z_scope.

(** What ASN1_get_object reports about the element at the start of a buffer:
    number of header octets, content length, tag number, class (0 universal ..
    3 private), constructed bit, indefinite length. *)
Record header := {
  h_octets : Z; h_len : Z; h_tag : Z; h_class : Z; h_cons : bool; h_indef : bool
}.

(** Big-endian value of a digit string in base [b]. *)
Definition be (b : Z) (ds : bytes) : Z := fold_left (fun a d => a * b + d) ds 0.

(** X.690 8.1.2: identifier octets. *)
Definition identifier_octets (cls : Z) (cons : bool) (tag : Z) (ids : bytes) : Prop :=
  0 <= cls < 4 /\
  ((0 <= tag < 31 /\ ids = [64 * cls + (if cons then 32 else 0) + tag])
   \/ exists hi lo, ids = (64 * cls + (if cons then 32 else 0) + 31) :: map (Z.add 128) hi ++ [lo]
        /\ Forall (fun d => 0 <= d < 128) (hi ++ [lo]) /\ tag = be 128 (hi ++ [lo])).

(** X.690 8.1.3: definite length octets, short or long form. *)
Definition length_octets (n : Z) (ls : bytes) : Prop :=
  (0 <= n < 128 /\ ls = [n])
  \/ exists ds, ls = (128 + len ds) :: ds /\ 1 <= len ds < 127 /\ all_bytes ds /\ be 256 ds = n.

(** The buffer [b] starts with a BER header saying [h], and the element's
    content, if its length is given, lies within the buffer. *)
Definition starts_with (b : bytes) (h : header) : Prop :=
  exists ids ls rest, b = ids ++ ls ++ rest /\ len (ids ++ ls) = h_octets h
    /\ identifier_octets (h_class h) (h_cons h) (h_tag h) ids
    /\ 0 <= h_len h <= len rest
    /\ if h_indef h then ls = [128] /\ h_len h = 0 /\ h_cons h = true else length_octets (h_len h) ls.

(** DER (X.690 10.1): the shortest length octets. *)
Fixpoint be_digits (fuel : nat) (n : Z) : bytes :=
  match fuel with
  | O => []
  | S f => if n <=? 0 then [] else be_digits f (n / 256) ++ [n mod 256]
  end.
Definition der_length (n : Z) : bytes :=
  if n <? 128 then [n] else let ds := be_digits 8 n in (128 + len ds) :: ds.
Definition der_header (cls : Z) (cons : bool) (tag n : Z) : bytes :=
  (64 * cls + (if cons then 32 else 0) + tag) :: der_length n.

(** What is assumed of ASN1_get_object (OpenSSL, external), given the bytes it
    may look at: what it reports is there; it reads every DER header of a
    low-numbered tag whose content is present; bytes after the element do not
    matter. *)
Record asn1_reader (G : bytes -> option header) : Prop := {
  asn1_sound : forall b h, all_bytes b -> G b = Some h -> starts_with b h;
  asn1_reads : forall cls cons tag content rest, 0 <= cls < 4 -> 0 <= tag < 31 -> len content < 2 ^ 31 ->
    G (der_header cls cons tag (len content) ++ content ++ rest)
    = Some {| h_octets := len (der_header cls cons tag (len content)); h_len := len content;
              h_tag := tag; h_class := cls; h_cons := cons; h_indef := false |};
  asn1_extends : forall b h rest, G b = Some h -> G (b ++ rest) = Some h
}.

(** Trees of elements and their DER encoding. *)
Inductive tree :=
| Prim (cls tag : Z) (content : bytes)
| Node (cls tag : Z) (items : list tree).

Fixpoint der (t : tree) : bytes :=
  match t with
  | Prim cls tag c => der_header cls false tag (len c) ++ c
  | Node cls tag items =>
    let c := concat (map der items) in der_header cls true tag (len c) ++ c
  end.
Definition ders (l : list tree) : bytes := concat (map der l).

(** X.690 8.19: a valid OBJECT IDENTIFIER content is a non-empty sequence of
    base-128 numbers without leading zero digits. *)
Inductive subidentifier : bytes -> Prop :=
| sub_intro : forall hi lo, Forall (fun d => 128 <= d < 256) hi -> 0 <= lo < 128 ->
    hd 0 hi <> 128 -> subidentifier (hi ++ [lo]).
Definition valid_oid (c : bytes) : Prop :=
  exists subs, subs <> [] /\ Forall subidentifier subs /\ c = concat subs.

(** The OBJECT IDENTIFIERs of a tree, left to right. *)
Fixpoint oids (t : tree) : list bytes :=
  match t with
  | Prim cls tag c => if (cls =? 0) && (tag =? 6) then [c] else []
  | Node _ _ items => concat (map oids items)
  end.

(** Elements CSR attributes are made of: SEQUENCEs, SETs, and primitive values,
    OBJECT IDENTIFIERs among them, all universal. *)
Fixpoint plain (t : tree) : Prop :=
  match t with
  | Prim cls tag c => cls = 0 /\ 0 <= tag < 31 /\ tag <> 16 /\ tag <> 17 /\ all_bytes c /\ (tag = 6 -> valid_oid c)
  | Node cls tag items => cls = 0 /\ (tag = 16 \/ tag = 17)
      /\ (fix all (l : list tree) : Prop := match l with [] => True | x :: r => plain x /\ all r end) items
  end.
(** Elements certificate requests are made of: any class, low tags, definite
    lengths, no end-of-contents marker outside the indefinite form. *)
Fixpoint ordinary (t : tree) : Prop :=
  match t with
  | Prim cls tag c => 0 <= cls < 4 /\ 0 <= tag < 31 /\ all_bytes c /\ (cls = 0 -> tag <> 0) /\ (cls = 0 -> tag = 6 -> valid_oid c)
  | Node cls tag items => 0 <= cls < 4 /\ 0 <= tag < 31
      /\ (fix all (l : list tree) : Prop := match l with [] => True | x :: r => ordinary x /\ all r end) items
  end.

(** pkcs-9-at-challengePassword, 1.2.840.113549.1.9.7. *)
Definition challengePassword : bytes := [42; 134; 72; 134; 247; 13; 1; 9; 7].

(** How the library reads attribute data [b]: from left to right, element by
    element, entering SEQUENCEs and SETs (and malformed OBJECT IDENTIFIERs)
    without regard to where they end, passing over everything else; [os] are
    the OBJECT IDENTIFIERs met.  Each element must fit in what is left. *)
Inductive reads : bytes -> list bytes -> Prop :=
| reads_nil : reads [] []
| reads_oid : forall hd c rest h os, starts_with (hd ++ c ++ rest) h -> len hd = h_octets h -> len c = h_len h ->
    h_tag h = 6 -> valid_oid c -> reads rest os -> reads (hd ++ c ++ rest) (c :: os)
| reads_open : forall hd rest h os, starts_with (hd ++ rest) h -> len hd = h_octets h ->
    h_tag h = 16 \/ h_tag h = 17 -> reads rest os -> reads (hd ++ rest) os
| reads_bad : forall hd c rest h os, starts_with (hd ++ c ++ rest) h -> len hd = h_octets h -> len c = h_len h ->
    h_tag h = 6 -> ~ valid_oid c -> reads (c ++ rest) os -> reads (hd ++ c ++ rest) os
| reads_skip : forall hd c rest h os, starts_with (hd ++ c ++ rest) h -> len hd = h_octets h -> len c = h_len h ->
    h_tag h <> 6 -> h_tag h <> 16 -> h_tag h <> 17 -> reads rest os -> reads (hd ++ c ++ rest) os.

(** An OBJECT IDENTIFIER with content [c] occurs in the data [b]. *)
Definition contains_oid (b c : bytes) : Prop :=
  valid_oid c /\ exists pre ids ls post, b = pre ++ ids ++ ls ++ c ++ post
    /\ identifier_octets 0 false 6 ids /\ length_octets (len c) ls.
