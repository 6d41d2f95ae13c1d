(** Error codes are pairwise different. *)
From Coq Require Import ZArith List Lia.
From Verif Require Import Base Model.EstErr.
Import ListNotations.
Open Scope Z_scope.

Lemma nth_err_code : forall e, nth (Z.to_nat (err_code e)) all_errors EST_ERR_UNKNOWN = e.
Proof. destruct e; reflexivity. Qed.
Lemma err_code_inj : forall a b, err_code a = err_code b -> a = b.
Proof. intros a b H. rewrite <- (nth_err_code a), <- (nth_err_code b). now rewrite H. Qed.
Lemma err_eqb_eq : forall a b, err_eqb a b = true <-> a = b.
Proof.
  intros a b. unfold err_eqb. rewrite Z.eqb_eq. split; [apply err_code_inj|congruence].
Qed.
Lemma is_none_eq : forall e, is_none e = true <-> e = EST_ERR_NONE.
Proof. intro e. split; [destruct e; (reflexivity || discriminate)|now intros ->]. Qed.
Lemma is_none_false : forall e, is_none e = false <-> e <> EST_ERR_NONE.
Proof. intro e. rewrite <- is_none_eq. destruct (is_none e); split; congruence. Qed.
