(** JSON texts (RFC 8259) and the tokens they consist of. *)
From Coq Require Import String ZArith List Bool.
From Verif Require Import Base Model.Jsmn.
Import ListNotations.
Open Scope Z_scope.

(** White space: tab, line feed, carriage return, space. *)
Definition ws (w : bytes) : Prop := Forall (fun c => In c [9; 10; 13; 32]) w.

(** The body of a string: characters other than the quotation mark, the
    backslash and NUL, or escape sequences. *)
Inductive body : bytes -> Prop :=
| body_nil : body []
| body_plain c t : c <> 0 -> c <> 34 -> c <> 92 -> body t -> body (c :: t)
| body_escape c t : In c (str """\/bfnrt") -> body t -> body (92 :: c :: t)
| body_unicode a b c d t : isxdigit a = true -> isxdigit b = true -> isxdigit c = true -> isxdigit d = true ->
    body t -> body (92 :: 117 :: a :: b :: c :: d :: t).

(** A JSON value, together with the white space it is written with. *)
Inductive json :=
| JPrim (text : bytes)                      (* number, true, false, null *)
| JStr (text : bytes)
| JArr (w : bytes) (l : items)
| JObj (w : bytes) (l : members)
with items := INil | ICons (w1 : bytes) (v : json) (w2 : bytes) (l : items)
with members := MNil | MCons (w1 key w2 w3 : bytes) (v : json) (w4 : bytes) (l : members).

(** Its text. *)
Fixpoint text (v : json) : bytes :=
  match v with
  | JPrim t => t
  | JStr t => [34] ++ t ++ [34]
  | JArr w l => [91] ++ w ++ items_text true l ++ [93]
  | JObj w l => [123] ++ w ++ members_text true l ++ [125]
  end
with items_text (first : bool) (l : items) : bytes :=
  match l with
  | INil => []
  | ICons w1 v w2 l => (if first then [] else [44]) ++ w1 ++ text v ++ w2 ++ items_text false l
  end
with members_text (first : bool) (l : members) : bytes :=
  match l with
  | MNil => []
  | MCons w1 key w2 w3 v w4 l =>
    (if first then [] else [44]) ++ w1 ++ [34] ++ key ++ [34] ++ w2 ++ [58] ++ w3 ++ text v ++ w4 ++ members_text false l
  end.

Definition prim_char (c : Z) : Prop := isalnum c = true \/ In c (str "+-.").
Fixpoint valid (v : json) : Prop :=
  match v with
  | JPrim t => t <> [] /\ Forall prim_char t
  | JStr t => body t
  | JArr w l => ws w /\ valid_items l
  | JObj w l => ws w /\ valid_members l
  end
with valid_items (l : items) : Prop :=
  match l with INil => True | ICons w1 v w2 l => ws w1 /\ valid v /\ ws w2 /\ valid_items l end
with valid_members (l : members) : Prop :=
  match l with
  | MNil => True
  | MCons w1 key w2 w3 v w4 l => ws w1 /\ body key /\ ws w2 /\ ws w3 /\ valid v /\ ws w4 /\ valid_members l
  end.

(** The number of elements. *)
Fixpoint count_items (l : items) : Z := match l with INil => 0 | ICons _ _ _ l => count_items l + 1 end.
Fixpoint count_members (l : members) : Z := match l with MNil => 0 | MCons _ _ _ _ _ _ l => count_members l + 1 end.

(** The tokens of a value written from position [n] on: each value before its
    parts; strings without their quotation marks; the size of an array is the
    number of its elements, that of an object the number of its members, that
    of a member's name 1. *)
Definition token ty a b s : tok := {| t_type := ty; t_start := a; t_end := b; t_size := s |}.
Fixpoint tokens (v : json) (n : Z) : list tok :=
  match v with
  | JPrim t => [token JSMN_PRIMITIVE n (n + len t) 0]
  | JStr t => [token JSMN_STRING (n + 1) (n + 1 + len t) 0]
  | JArr w l => token JSMN_ARRAY n (n + len (text v)) (count_items l) :: items_tokens true l (n + 1 + len w)
  | JObj w l => token JSMN_OBJECT n (n + len (text v)) (count_members l) :: members_tokens true l (n + 1 + len w)
  end
with items_tokens (first : bool) (l : items) (n : Z) : list tok :=
  match l with
  | INil => []
  | ICons w1 v w2 l =>
    let a := n + (if first then 0 else 1) + len w1 in
    tokens v a ++ items_tokens false l (a + len (text v) + len w2)
  end
with members_tokens (first : bool) (l : members) (n : Z) : list tok :=
  match l with
  | MNil => []
  | MCons w1 key w2 w3 v w4 l =>
    let a := n + (if first then 0 else 1) + len w1 in
    let b := a + 2 + len key + len w2 + 1 + len w3 in
    token JSMN_STRING (a + 1) (a + 1 + len key) 1 :: tokens v b ++ members_tokens false l (b + len (text v) + len w4)
  end.

(** A token belongs to a text: it is a bracketed, quoted or bare piece of it. *)
Definition char_at (s : bytes) (i c : Z) : Prop := 0 <= i < len s /\ nth (Z.to_nat i) s 0 = c.
Definition piece (s : bytes) (a b : Z) : bytes := firstn (Z.to_nat (b - a)) (skipn (Z.to_nat a) s).
Definition placed (s : bytes) (t : tok) : Prop :=
  0 <= t_start t <= t_end t /\ t_end t <= len s /\ no_nul (piece s (t_start t) (t_end t)) /\
  match t_type t with
  | JSMN_OBJECT => char_at s (t_start t) 123 /\ char_at s (t_end t - 1) 125 /\ t_start t < t_end t - 1
  | JSMN_ARRAY => char_at s (t_start t) 91 /\ char_at s (t_end t - 1) 93 /\ t_start t < t_end t - 1
  | JSMN_STRING => char_at s (t_start t - 1) 34 /\ char_at s (t_end t) 34 /\ body (piece s (t_start t) (t_end t))
  | JSMN_PRIMITIVE => t_start t < t_end t /\ Forall (fun c => 32 < c < 127) (piece s (t_start t) (t_end t))
  | JSMN_UNDEFINED => False
  end.
(** [a] comes before [b], or [b] lies inside the container [a]. *)
Definition before_or_around (a b : tok) : Prop :=
  t_end a <= t_start b
  \/ (is_container a = true /\ t_start a < t_start b /\ t_end b <= t_end a - 1).
