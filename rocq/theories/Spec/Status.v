(** Specification vocabulary for BRSKI status messages: how a registrar reads
    the JSON text it gets, and what an HTTP request carries.  No model
    imports. *)
From Coq Require Import String ZArith List Bool.
From Verif Require Import Base Spec.Http.
Import ListNotations.
Open Scope Z_scope.

(** ** JSON objects of strings and truth values (RFC 8259) *)
Inductive value := Text (s : bytes) | Truth (b : bool).

(** [string_text s t]: between quotation marks, [t] denotes the characters [s]
    (escapes with \u left out). *)
Inductive string_text : bytes -> bytes -> Prop :=
| string_end : string_text [] []
| string_plain : forall c s t, 32 <= c -> c <> 34 -> c <> 92 -> string_text s t -> string_text (c :: s) (c :: t)
| string_escape : forall c e s t, In (c, e) [(34, 34); (92, 92); (47, 47); (8, 98); (12, 102); (10, 110); (13, 114); (9, 116)] ->
    string_text s t -> string_text (c :: s) (92 :: e :: t).
Definition spaces (w : bytes) : Prop := Forall (fun c => In c [9; 10; 13; 32]) w.
Inductive value_text : value -> bytes -> Prop :=
| text_true : value_text (Truth true) (str "true")
| text_false : value_text (Truth false) (str "false")
| text_string : forall s t, string_text s t -> value_text (Text s) ([34] ++ t ++ [34]).
Definition member := (bytes * value)%type.
Definition member_text (m : member) (t : bytes) : Prop :=
  exists w1 n w2 w3 v w4, t = w1 ++ [34] ++ n ++ [34] ++ w2 ++ [58] ++ w3 ++ v ++ w4
    /\ spaces w1 /\ spaces w2 /\ spaces w3 /\ spaces w4 /\ string_text (fst m) n /\ value_text (snd m) v.
(** [object ms t]: the text [t] is an object with the members [ms], in order. *)
Inductive members_text : list member -> bytes -> Prop :=
| one_member : forall m t, member_text m t -> members_text [m] t
| more_members : forall m t ms u, member_text m t -> members_text ms u -> members_text (m :: ms) (t ++ [44] ++ u).
Definition object (ms : list member) (t : bytes) : Prop := exists u, t = [123] ++ u ++ [125] /\ members_text ms u.
(** Most readers take the last of several members of the same name. *)
Definition last_member (name : bytes) (ms : list member) (v : value) : Prop :=
  exists a b, ms = a ++ (name, v) :: b /\ Forall (fun m => fst m <> name) b.

(** Characters that denote themselves in a JSON string. *)
Definition plain (s : bytes) : Prop := Forall (fun c => 32 <= c /\ c <> 34 /\ c <> 92) s.

(** ** HTTP *)
(** [q] is a POST to [uri] whose body, delimited by Content-Length, is [body]
    and is declared as JSON.  (Two more octets follow it.) *)
Definition posts (uri body q : bytes) : Prop :=
  exists hs t n, q = render_head (str "POST") uri (str "HTTP/1.1") hs ++ body ++ t /\ len t = 2
    /\ first_header hs (str "Content-Type") (str "application/json")
    /\ first_header hs (str "Content-Length") n /\ decimal n (len body).
