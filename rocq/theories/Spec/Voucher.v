(** What a voucher document says. *)
From Coq Require Import String ZArith List Bool.
From Verif Require Import Base Model.Jsmn Model.Voucher Spec.Json.
Import ListNotations.
Open Scope Z_scope.

(** The text of a token of document [s]. *)
Definition token_text (s : bytes) (t : tok) : bytes := piece s (t_start t) (t_end t).

(** The text following the first string [name] among the tokens; empty if it
    is the last token. *)
Fixpoint said (s name : bytes) (ts : list tok) : option bytes :=
  match ts with
  | [] => None
  | t :: r => if jtype_eqb (t_type t) JSMN_STRING && beq (token_text s t) name
              then Some (match r with [] => [] | n :: _ => token_text s n end)
              else said s name r
  end.

(** ** Vouchers as RFC 8366 writes them: an object with one member (its name
    is "ietf-voucher:voucher"), an object whose members have simple values. *)
Fixpoint simple (ms : members) : Prop :=
  match ms with
  | MNil => True
  | MCons _ _ _ _ (JStr _) _ l | MCons _ _ _ _ (JPrim _) _ l => simple l
  | _ => False
  end.
(** The value of the member [name] (the first, if there are several). *)
Fixpoint member (name : bytes) (ms : members) : option bytes :=
  match ms with
  | MNil => None
  | MCons _ key _ _ v _ l =>
    if beq key name then match v with JStr t | JPrim t => Some t | _ => None end else member name l
  end.
(** No member has [name] as its value. *)
Fixpoint not_a_value (name : bytes) (ms : members) : Prop :=
  match ms with
  | MNil => True
  | MCons _ _ _ _ v _ l => match v with JStr t => t <> name | _ => True end /\ not_a_value name l
  end.
Definition voucher (outer : bytes) (ms : members) : json :=
  JObj [] (MCons [] outer [] [] (JObj [] ms) [] MNil).

(** ** What a call did: the requests sent and the seconds slept. *)
Definition sent (tr : list step) : list (bytes * exchange) := flat_map (fun s => match s with Sent n x => [(n, x)] | Slept _ => [] end) tr.
Definition slept (tr : list step) : list Z := flat_map (fun s => match s with Sent _ _ => [] | Slept d => [d] end) tr.
