(** Specification vocabulary for WWW-Authenticate challenges (RFC 7235, section
    4.1): a scheme and parameters [name = value], the values quoted or bare. *)
From Coq Require Import String ZArith List Bool.
From Verif Require Import Base Spec.Http.
Import ListNotations.
Open Scope Z_scope.

Inductive pvalue := Quoted (v : bytes) | Bare (v : bytes).
Definition the_value (v : pvalue) : bytes := match v with Quoted x | Bare x => x end.

(** What may stand where: blanks, a word (a name or a bare value), quoted text
    (without escapes), and the gap before a parameter. *)
Definition blanks (s : bytes) : Prop := Forall (fun c => c = 32 \/ c = 9) s.
Definition spacing (s : bytes) : Prop := s <> [] /\ Forall (fun c => c = 32 \/ c = 9 \/ c = 44) s.
Definition word (s : bytes) : Prop :=
  s <> [] /\ Forall (fun c => 33 <= c < 127 /\ ~ In c (str "()<>@,;:\/[]?={}" ++ [34])) s.
Definition quotable (s : bytes) : Prop := Forall (fun c => ~ In c [0; 10; 13; 34; 92]) s.
Definition written (v : pvalue) (s : bytes) : Prop :=
  match v with
  | Quoted x => quotable x /\ s = [34] ++ x ++ [34]
  | Bare x => word x /\ s = x
  end.

(** [s] writes the parameters [ps]. *)
Inductive parameters : bytes -> list (bytes * pvalue) -> Prop :=
| no_parameters : parameters [] []
| one_parameter : forall g n a b v w s ps, spacing g -> word n -> blanks a -> blanks b -> written v w -> parameters s ps ->
    parameters (g ++ n ++ a ++ str "=" ++ b ++ w ++ s) ((n, v) :: ps).

(** The parameter called [name], up to case; the last one if it is repeated. *)
Definition called (name : string) (p : bytes * pvalue) : bool := beq (map tolower (fst p)) (str name).
Definition last_value (name : string) (ps : list (bytes * pvalue)) : option bytes :=
  match filter (called name) (rev ps) with [] => None | p :: _ => Some (the_value (snd p)) end.
(** What is remembered of it: [max] bytes; what was known before if it is absent. *)
Definition noted (max : nat) (name : string) (ps : list (bytes * pvalue)) (old : bytes) : bytes :=
  match last_value name ps with Some v => firstn max v | None => old end.

(** A parameter an EST client uses; the hash algorithm can only be MD5. *)
Definition used_names : list string := ["realm"; "nonce"; "qop"; "error"; "error_description"]%string.
Definition known (p : bytes * pvalue) : Prop := exists n, In n used_names /\ called n p = true.
Definition md5 (p : bytes * pvalue) : Prop := called "algorithm" p = true /\ case_eq (the_value (snd p)) (str "md5").
(** Another parameter, whose value is not itself one of these names. *)
Definition foreign (p : bytes * pvalue) : Prop :=
  the_value (snd p) <> []
  /\ Forall (fun n => called n p = false /\ ~ case_eq (the_value (snd p)) (str n)) ("algorithm"%string :: used_names).
Definition understood (ps : list (bytes * pvalue)) : Prop := Forall (fun p => known p \/ md5 p \/ foreign p) ps.

(** [v] is the value of the first header whose name begins with [name] (C's
    strncmp: case matters). *)
Definition first_starting (hs : list (bytes * bytes)) (name v : bytes) : Prop :=
  exists h1 n t h2, hs = h1 ++ (n, v) :: h2 /\ n = name ++ t /\ Forall (fun h => forall t, fst h <> name ++ t) h1.
