(** Specification vocabulary for memory given back to the system. *)
From Coq Require Import ZArith List.
From Verif Require Import Base.
Import ListNotations.
Open Scope Z_scope.

Definition zeros (n : Z) : bytes := repeat 0 (Z.to_nat n).
(** A block that holds nothing but zeros. *)
Definition blank (b : bytes) : Prop := Forall (fun c => c = 0) b.
(** A block that still holds the string [s], somewhere. *)
Definition holds (s b : bytes) : Prop := exists x y, b = x ++ s ++ y.
(** The block an application allocated for the string [s]: the string, its NUL
    and perhaps more room. *)
Definition block_of (s b : bytes) : Prop := no_nul s /\ exists t, b = s ++ 0 :: t.
