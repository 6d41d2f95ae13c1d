(** Specifications for URI decoding and normalisation.  No model imports. *)
From Coq Require Import String ZArith List Bool.
From Verif Require Import Base.
Import ListNotations.
Open Scope Z_scope.

(** Value of a hexadecimal digit. *)
Definition hexval (c v : Z) : Prop :=
  (48 <= c <= 57 /\ v = c - 48) \/ (65 <= c <= 70 /\ v = c - 55) \/ (97 <= c <= 102 /\ v = c - 87).
Definition is_hex (c : Z) : Prop := exists v, hexval c v.

(** [e] percent-decodes to [s]: an escape is '%' and two hexadecimal digits;
    any other byte (including a '%' not followed by two digits) stands for itself. *)
Inductive pct_decodes : bytes -> bytes -> Prop :=
| pct_nil : pct_decodes [] []
| pct_esc : forall a b x y e s, hexval a x -> hexval b y -> pct_decodes e s ->
    pct_decodes (37 :: a :: b :: e) (16 * x + y :: s)
| pct_raw : forall c e s,
    ~ (c = 37 /\ exists a b u, e = a :: b :: u /\ is_hex a /\ is_hex b) ->
    pct_decodes e s -> pct_decodes (c :: e) (c :: s).

(** Canonical percent-encoding: every byte escaped with lower-case digits. *)
Definition hexdigit (v : Z) : Z := if v <? 10 then 48 + v else 87 + v.
Definition pct_encode (s : bytes) : bytes :=
  flat_map (fun b => [37; hexdigit (b / 16); hexdigit (b mod 16)]) s.

(** Path separators, and separator junk: slashes, backslashes, dot-dots. *)
Definition slash (c : Z) : Prop := c = 47 \/ c = 92.
Inductive junk : bytes -> Prop :=
| junk_nil : junk []
| junk_slash : forall c g, slash c -> junk g -> junk (c :: g)
| junk_dots : forall g, junk g -> junk (46 :: 46 :: g).
Definition starts_junk (t : bytes) : Prop :=
  (exists c u, t = c :: u /\ slash c) \/ (exists u, t = 46 :: 46 :: u).

(** [v] is [u] with the junk after every kept separator removed (maximally). *)
Inductive normal_form : bytes -> bytes -> Prop :=
| nf_nil : normal_form [] []
| nf_plain : forall c t v, ~ slash c -> normal_form t v -> normal_form (c :: t) (c :: v)
| nf_slash : forall c g t v, slash c -> junk g -> ~ starts_junk t -> normal_form t v ->
    normal_form (c :: g ++ t) (c :: v).

(** No traversal: no separator is directly followed by a separator or by "..". *)
Definition clean (u : bytes) : Prop :=
  forall a c b, u = a ++ c :: b -> slash c -> ~ starts_junk b.
