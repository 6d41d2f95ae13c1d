(** Common vocabulary of the model: bytes, C strings, outcomes with explicit
    undefined behaviour, and the C-locale <ctype.h> predicates. *)
From Coq Require Import String Ascii ZArith List Bool Lia.
From Coq Require Import ZifyBool ZifyNat.
Import ListNotations.
Open Scope Z_scope.

(** A byte is a [Z]; [is_byte] says it is in range. *)
Definition bytes := list Z.
Definition is_byte (b : Z) : Prop := 0 <= b < 256.
Definition all_bytes (l : bytes) : Prop := Forall is_byte l.

(** Length as a [Z]. *)
Definition len {A} (l : list A) : Z := Z.of_nat (List.length l).

(** Byte string of a Coq string literal. *)
Definition byte_of_ascii (a : ascii) : Z := Z.of_N (N_of_ascii a).
Fixpoint str (s : string) : bytes :=
  match s with
  | EmptyString => []
  | String a s' => byte_of_ascii a :: str s'
  end.

(** Outcome of a computation that may have undefined behaviour. *)
Inductive res (A : Type) : Type :=
| Ok (a : A)
| UB.
Arguments Ok {A} a.
Arguments UB {A}.

Definition bind {A B} (x : res A) (f : A -> res B) : res B :=
  match x with Ok a => f a | UB => UB end.
Notation "x <- e ;; f" := (bind e (fun x => f))
  (at level 61, e at next level, right associativity).
Notation "' p <- e ;; f" := (bind e (fun x => match x with p => f end))
  (at level 61, p pattern, e at next level, right associativity).

Definition is_ok {A} (r : res A) : Prop := exists a, r = Ok a.

(** Memory blocks: reading and writing one byte; outside the block is [UB]. *)
Definition rd (m : bytes) (i : Z) : res Z :=
  if 0 <=? i then match nth_error m (Z.to_nat i) with Some c => Ok c | None => UB end else UB.

Fixpoint set_nth {A} (n : nat) (l : list A) (v : A) : list A :=
  match l, n with
  | [], _ => []
  | _ :: t, O => v :: t
  | h :: t, S n' => h :: set_nth n' t v
  end.

Definition wr (m : bytes) (i v : Z) : res bytes :=
  if 0 <=? i then
    match nth_error m (Z.to_nat i) with Some _ => Ok (set_nth (Z.to_nat i) m v) | None => UB end
  else UB.

(** The C string starting at offset [i] of block [m]: the bytes up to (not
    including) the first NUL; [UB] if there is no NUL inside the block. *)
Fixpoint cstr (m : bytes) : res bytes :=
  match m with
  | [] => UB
  | c :: t => if c =? 0 then Ok [] else s <- cstr t ;; Ok (c :: s)
  end.
Definition cstr_at (m : bytes) (i : Z) : res bytes :=
  if 0 <=? i then cstr (skipn (Z.to_nat i) m) else UB.

(** NUL-free strings. *)
Definition no_nul (s : bytes) : Prop := ~ In 0 s.
Definition c_string (s : bytes) : Prop := all_bytes s /\ no_nul s.

(** <ctype.h> in the C locale. *)
Definition isdigit (c : Z) : bool := (48 <=? c) && (c <=? 57).
Definition isupper (c : Z) : bool := (65 <=? c) && (c <=? 90).
Definition islower (c : Z) : bool := (97 <=? c) && (c <=? 122).
Definition isalpha (c : Z) : bool := isupper c || islower c.
Definition isalnum (c : Z) : bool := isalpha c || isdigit c.
Definition isxdigit (c : Z) : bool :=
  isdigit c || ((65 <=? c) && (c <=? 70)) || ((97 <=? c) && (c <=? 102)).
Definition isspace (c : Z) : bool := (c =? 32) || ((9 <=? c) && (c <=? 13)).
Definition isprint (c : Z) : bool := (32 <=? c) && (c <=? 126).
Definition tolower (c : Z) : Z := if isupper c then c + 32 else c.
Definition toupper (c : Z) : Z := if islower c then c - 32 else c.

(** Equality of byte strings, decidable. *)
Fixpoint beq (a b : bytes) : bool :=
  match a, b with
  | [], [] => true
  | x :: a', y :: b' => (x =? y) && beq a' b'
  | _, _ => false
  end.

Fixpoint prefixb (p s : bytes) : bool :=
  match p, s with
  | [], _ => true
  | x :: p', y :: s' => (x =? y) && prefixb p' s'
  | _, [] => false
  end.

Definition memb (c : Z) (l : bytes) : bool := existsb (Z.eqb c) l.

(** Longest prefix of bytes satisfying [f]; what follows it. *)
Fixpoint take_while (f : Z -> bool) (l : bytes) : bytes :=
  match l with [] => [] | c :: t => if f c then c :: take_while f t else [] end.
Fixpoint drop_while (f : Z -> bool) (l : bytes) : bytes :=
  match l with [] => [] | c :: t => if f c then drop_while f t else l end.

(** * Elementary lemmas *)

Lemma len_nil : forall A, len (@nil A) = 0.
Proof. reflexivity. Qed.
Lemma len_cons : forall A (x : A) l, len (x :: l) = len l + 1.
Proof. intros. unfold len. cbn [List.length]. lia. Qed.
Lemma len_app : forall A (a b : list A), len (a ++ b) = len a + len b.
Proof. intros. unfold len. rewrite app_length. lia. Qed.
Lemma len_nonneg : forall A (l : list A), 0 <= len l.
Proof. intros. unfold len. lia. Qed.
Lemma len_skipn : forall A n (l : list A), len (skipn n l) = Z.max 0 (len l - Z.of_nat n).
Proof. intros. unfold len. rewrite skipn_length. lia. Qed.
Lemma len_firstn : forall A n (l : list A), len (firstn n l) = Z.min (Z.of_nat n) (len l).
Proof. intros. unfold len. rewrite firstn_length. lia. Qed.
Lemma len_map : forall A B (f : A -> B) l, len (map f l) = len l.
Proof. intros. unfold len. now rewrite map_length. Qed.
Lemma len_rev : forall A (l : list A), len (rev l) = len l.
Proof. intros. unfold len. now rewrite rev_length. Qed.
Lemma len_repeat : forall A (x : A) n, len (repeat x n) = Z.of_nat n.
Proof. intros. unfold len. now rewrite repeat_length. Qed.
Lemma len_0_nil : forall A (l : list A), len l = 0 -> l = [].
Proof. intros A [|x l]; [reflexivity|]. rewrite len_cons. pose proof (len_nonneg A l). lia. Qed.

Lemma beq_eq : forall a b, beq a b = true <-> a = b.
Proof.
  induction a as [|x a IH]; destruct b as [|y b]; cbn; split; intro H; try easy.
  - apply andb_true_iff in H as [H1 H2]. apply Z.eqb_eq in H1. apply IH in H2. congruence.
  - inversion H; subst. rewrite Z.eqb_refl. now apply IH.
Qed.
Lemma beq_refl : forall a, beq a a = true.
Proof. intro. now apply beq_eq. Qed.
Lemma beq_neq : forall a b, beq a b = false <-> a <> b.
Proof.
  intros a b. split; intro H.
  - intro E. apply beq_eq in E. congruence.
  - destruct (beq a b) eqn:E; [|reflexivity]. apply beq_eq in E. contradiction.
Qed.

Lemma prefixb_spec : forall p s, prefixb p s = true <-> exists t, s = p ++ t.
Proof.
  induction p as [|x p IH]; intros s; cbn.
  - split; [intros _; now exists s | reflexivity].
  - destruct s as [|y s].
    + split; [easy | intros [t H]; easy].
    + rewrite andb_true_iff, Z.eqb_eq, IH. split.
      * intros [-> [t ->]]. now exists t.
      * intros [t H]. inversion H; subst. split; [reflexivity | now exists t].
Qed.

Lemma memb_In : forall c l, memb c l = true <-> In c l.
Proof.
  intros. unfold memb. rewrite existsb_exists. split.
  - intros [x [H1 H2]]. apply Z.eqb_eq in H2. now subst.
  - intro H. exists c. split; [assumption | apply Z.eqb_refl].
Qed.

Lemma take_drop_while : forall f l, take_while f l ++ drop_while f l = l.
Proof. induction l as [|c l IH]; cbn; [reflexivity|]. destruct (f c); cbn; congruence. Qed.

Lemma take_while_all : forall f l, Forall (fun c => f c = true) (take_while f l).
Proof.
  induction l as [|c l IH]; cbn; [constructor|].
  destruct (f c) eqn:E; constructor; assumption.
Qed.

Lemma take_while_app_all : forall f a b,
  Forall (fun c => f c = true) a -> take_while f (a ++ b) = a ++ take_while f b.
Proof. induction a as [|c a IH]; intros b H; cbn; [reflexivity|]. inversion H; subst. rewrite H2, IH; auto. Qed.
Lemma drop_while_app_all : forall f a b,
  Forall (fun c => f c = true) a -> drop_while f (a ++ b) = drop_while f b.
Proof. induction a as [|c a IH]; intros b H; cbn; [reflexivity|]. inversion H; subst. rewrite H2, IH; auto. Qed.

Lemma set_nth_length : forall A n (l : list A) v, List.length (set_nth n l v) = List.length l.
Proof. induction n as [|n IH]; destruct l as [|x l]; intros v; cbn; auto. Qed.
Lemma len_set_nth : forall A n (l : list A) v, len (set_nth n l v) = len l.
Proof. intros. unfold len. now rewrite set_nth_length. Qed.
Lemma set_nth_split : forall A n (l : list A) v, (n < List.length l)%nat ->
  set_nth n l v = firstn n l ++ v :: skipn (S n) l.
Proof.
  induction n as [|n IH]; destruct l as [|x l]; intros v H; cbn in *; try lia; auto.
  rewrite IH by lia. reflexivity.
Qed.
Lemma nth_set_nth : forall A n (l : list A) v d k, (n < List.length l)%nat ->
  nth k (set_nth n l v) d = if Nat.eqb k n then v else nth k l d.
Proof.
  induction n as [|n IH]; destruct l as [|x l]; intros v d k H; cbn in H; try lia.
  - destruct k; reflexivity.
  - destruct k; cbn; [reflexivity|]. apply IH. lia.
Qed.

(** The three accesses by the length of the block. *)
Lemma rd_len : forall m i,
  rd m i = if (0 <=? i) && (i <? len m) then Ok (nth (Z.to_nat i) m 0) else UB.
Proof.
  intros m i. unfold rd, len. destruct (0 <=? i) eqn:E; cbn [andb]; [|reflexivity].
  destruct (nth_error m (Z.to_nat i)) as [c|] eqn:N.
  - assert (nth_error m (Z.to_nat i) <> None) as L by congruence. apply nth_error_Some in L.
    replace (i <? Z.of_nat (List.length m)) with true by lia. now rewrite (nth_error_nth _ _ 0 N).
  - apply nth_error_None in N. now replace (i <? Z.of_nat (List.length m)) with false by lia.
Qed.
Lemma wr_len : forall m i v,
  wr m i v = if (0 <=? i) && (i <? len m) then Ok (set_nth (Z.to_nat i) m v) else UB.
Proof.
  intros m i v. unfold wr, len. destruct (0 <=? i) eqn:E; cbn [andb]; [|reflexivity].
  destruct (nth_error m (Z.to_nat i)) as [c|] eqn:N.
  - assert (nth_error m (Z.to_nat i) <> None) as L by congruence. apply nth_error_Some in L.
    now replace (i <? Z.of_nat (List.length m)) with true by lia.
  - apply nth_error_None in N. now replace (i <? Z.of_nat (List.length m)) with false by lia.
Qed.
Lemma cstr_at_len : forall m i,
  cstr_at m i = if (0 <=? i) && (i <=? len m) then cstr (skipn (Z.to_nat i) m) else UB.
Proof.
  intros m i. unfold cstr_at, len. destruct (0 <=? i) eqn:E; cbn [andb]; [|reflexivity].
  destruct (i <=? Z.of_nat (List.length m)) eqn:L; [reflexivity|].
  rewrite skipn_all2 by lia. reflexivity.
Qed.

Lemma rd_ok : forall m i, 0 <= i < len m -> rd m i = Ok (nth (Z.to_nat i) m 0).
Proof. intros. rewrite rd_len. replace ((0 <=? i) && (i <? len m)) with true by lia. reflexivity. Qed.
Lemma wr_ok : forall m i v, 0 <= i < len m -> wr m i v = Ok (set_nth (Z.to_nat i) m v).
Proof. intros. rewrite wr_len. replace ((0 <=? i) && (i <? len m)) with true by lia. reflexivity. Qed.
Lemma rd_ub : forall m i, ~ (0 <= i < len m) -> rd m i = UB.
Proof. intros. rewrite rd_len. replace ((0 <=? i) && (i <? len m)) with false by lia. reflexivity. Qed.

Lemma cstr_app_nul : forall s t, no_nul s -> cstr (s ++ 0 :: t) = Ok s.
Proof.
  induction s as [|c s IH]; intros t H; cbn; [reflexivity|].
  assert (c <> 0) by (intro; subst; apply H; now left).
  replace (c =? 0) with false by lia. rewrite IH; [reflexivity|].
  intro. apply H. now right.
Qed.
Lemma cstr_inv : forall m s, cstr m = Ok s -> no_nul s /\ exists t, m = s ++ 0 :: t.
Proof.
  induction m as [|c m IH]; intros s H; cbn in H; [discriminate|].
  destruct (c =? 0) eqn:E.
  - inversion H; subst. split; [intros []|]. exists m. cbn. f_equal. lia.
  - destruct (cstr m) as [s'|] eqn:Es; cbn in H; [|discriminate]. inversion H; subst.
    destruct (IH s' eq_refl) as [Hn [t ->]]. split.
    + intros [Hc|Hc]; [lia|]. now apply Hn.
    + exists t. reflexivity.
Qed.
Lemma cstr_ok_iff : forall m, is_ok (cstr m) <-> In 0 m.
Proof.
  induction m as [|c m IH]; cbn.
  - split; [intros [a H]; discriminate | easy].
  - destruct (c =? 0) eqn:E.
    + split; [intros _; left; lia | intros _; eexists; reflexivity].
    + split.
      * intros [a H]. destruct (cstr m) eqn:Es; [|discriminate]. right. apply IH. eexists; reflexivity.
      * intros [Hc|Hc]; [lia|]. apply IH in Hc as [a ->]. eexists; reflexivity.
Qed.
Lemma no_nul_app : forall a b, no_nul (a ++ b) <-> no_nul a /\ no_nul b.
Proof. intros. unfold no_nul. rewrite in_app_iff. tauto. Qed.
Lemma no_nul_cons : forall c b, no_nul (c :: b) <-> c <> 0 /\ no_nul b.
Proof. intros. unfold no_nul. cbn. intuition. Qed.
Lemma c_string_app : forall a b, c_string (a ++ b) <-> c_string a /\ c_string b.
Proof. intros. unfold c_string, all_bytes. rewrite Forall_app, no_nul_app. tauto. Qed.

Lemma tolower_idem : forall c, tolower (tolower c) = tolower c.
Proof. intro c. unfold tolower, isupper. destruct ((65 <=? c) && (c <=? 90)) eqn:E; [|now rewrite E]. replace ((65 <=? c + 32) && (c + 32 <=? 90)) with false by lia. reflexivity. Qed.
Lemma tolower_toupper_eq : forall a b, tolower a = tolower b <-> toupper a = toupper b.
Proof.
  intros. unfold tolower, toupper, isupper, islower.
  destruct ((65 <=? a) && (a <=? 90)) eqn:E1; destruct ((65 <=? b) && (b <=? 90)) eqn:E2;
  destruct ((97 <=? a) && (a <=? 122)) eqn:E3; destruct ((97 <=? b) && (b <=? 122)) eqn:E4; lia.
Qed.

(** Rewrite the first computation of a [bind] with an equation that matches it
    only up to conversion ([bytes] against [list Z] in implicit arguments). *)
Ltac rw_bind E :=
  match goal with
  | |- bind ?e _ = _ =>
    let H := fresh in
    match type of E with
    | _ = ?r => assert (H : e = r) by exact E; rewrite H; clear H; cbn [bind]
    end
  end.
