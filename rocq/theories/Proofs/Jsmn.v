(** The JSON tokenizer: exact on JSON texts, safe and well nested on all texts. *)
From Coq Require Import String ZArith List Bool Lia ZifyBool ZifyNat.
From Verif Require Import Base Model.Jsmn Spec.Json.
Import ListNotations.
Open Scope Z_scope.

(** * Scans *)
Lemma prim_scan_shorter : forall s pos e t, prim_scan s pos = Some (e, t) -> (length t <= length s)%nat /\ e = pos + (len s - len t) /\ exists a, s = a ++ t /\ Forall (fun c => 32 < c < 127) a.
Proof.
  induction s as [|c s IH]; intros pos e t H; cbn [prim_scan] in H.
  - inversion H; subst. split; [lia|]. split; [cbn; lia|]. exists []. auto.
  - destruct (c =? 0); [inversion H; subst; split; [lia|]; split; [lia|]; exists []; auto|].
    destruct (ends_primitive c) eqn:E; [inversion H; subst; split; [lia|]; split; [lia|]; exists []; auto|].
    destruct ((c <? 32) || (127 <=? c)) eqn:R; [discriminate|].
    apply IH in H as (L & -> & a & -> & F). rewrite !len_cons, len_app. cbn [length]. rewrite app_length in *. split; [lia|].
    split; [lia|]. exists (c :: a). split; [reflexivity|]. constructor; [|exact F].
    unfold ends_primitive, memb in E. cbn [existsb] in E. lia.
Qed.
Lemma str_scan_shorter : forall s st pos e t, str_scan st s pos = SFound e t -> (length t < length s)%nat /\ e = pos + (len s - len t) - 1.
Proof.
  induction s as [|c s IH]; intros st pos e t H; cbn [str_scan] in H; [discriminate|].
  rewrite !len_cons. cbn [length].
  destruct st as [| |[|n]].
  1,3: destruct (c =? 0); [discriminate|]; destruct (c =? 34); [inversion H; subst; split; lia|];
       destruct (c =? 92); apply IH in H as [? ->]; split; lia.
  - destruct (simple_escape c); [apply IH in H as [? ->]; split; lia|]. destruct (c =? 117); [|discriminate].
    apply IH in H as [? ->]; split; lia.
  - destruct (c =? 0); [discriminate|]. destruct (isxdigit c); [|discriminate]. apply IH in H as [? ->]; split; lia.
Qed.
Lemma body_app : forall a b, body a -> body b -> body (a ++ b).
Proof. intros a b A B. induction A; cbn [app]; try (constructor; assumption). exact B. Qed.
Definition pending (st : sstate) (a : bytes) : Prop :=
  match st with
  | SPlain | SHex O => body a
  | SEscape => body (92 :: a)
  | SHex (S n) => exists h t, a = h ++ t /\ length h = S n /\ Forall (fun c => isxdigit c = true) h /\ body t
  end.
Lemma simple_escape_in : forall c, simple_escape c = true <-> In c (str """\/bfnrt").
Proof.
  intro c. unfold simple_escape, memb. cbn [existsb str In].
  change (byte_of_ascii _) with 34 at 1.
  cbn. lia.
Qed.
Lemma str_scan_body : forall s st pos e t, str_scan st s pos = SFound e t -> exists a, s = a ++ 34 :: t /\ pending st a.
Proof.
  induction s as [|c s IH]; intros st pos e t H; cbn [str_scan] in H; [discriminate|].
  destruct st as [| |[|n]].
  1,3: destruct (c =? 0) eqn:Z0; [discriminate|]; destruct (c =? 34) eqn:Q;
       [inversion H; subst; replace c with 34 by lia; exists []; split; [reflexivity|constructor]|];
       destruct (c =? 92) eqn:B; apply IH in H as (a & -> & P); exists (c :: a); (split; [reflexivity|]);
       [replace c with 92 by lia; exact P|constructor; try lia; exact P].
  - destruct (simple_escape c) eqn:S.
    + apply IH in H as (a & -> & P). exists (c :: a). split; [reflexivity|]. constructor; [now apply simple_escape_in|exact P].
    + destruct (c =? 117) eqn:U; [|discriminate]. apply IH in H as (a & -> & h & u & -> & L & F & B). exists (c :: h ++ u). split; [reflexivity|].
      replace c with 117 by lia.
      destruct h as [|h1 [|h2 [|h3 [|h4 [|]]]]]; try discriminate L.
      inversion F as [|? ? F1 G1]; inversion G1 as [|? ? F2 G2]; inversion G2 as [|? ? F3 G3]; inversion G3 as [|? ? F4 G4]; subst.
      now apply body_unicode.
  - destruct (c =? 0); [discriminate|]. destruct (isxdigit c) eqn:X; [|discriminate]. apply IH in H as (a & -> & P). exists (c :: a). split; [reflexivity|].
    destruct n as [|n].
    + exists [c], a. repeat split; auto.
    + destruct P as (h & u & -> & L & F & B). exists (c :: h), u. split; [reflexivity|]. cbn [length]. split; [lia|]. auto.
Qed.
Lemma str_scan_complete : forall a, body a -> forall t pos, str_scan SPlain (a ++ 34 :: t) pos = SFound (pos + len a) t.
Proof.
  intros a B. induction B; intros u pos; cbn [app].
  - cbn. now rewrite Z.add_0_r.
  - cbn [str_scan]. replace (c =? 0) with false by lia. replace (c =? 34) with false by lia. replace (c =? 92) with false by lia.
    rewrite IHB. f_equal. rewrite len_cons. lia.
  - cbn [str_scan]. change (92 =? 0) with false. change (92 =? 34) with false. change (92 =? 92) with true. cbv iota.
    apply simple_escape_in in H. rewrite H. rewrite IHB. f_equal. rewrite !len_cons. lia.
  - cbn [str_scan]. change (92 =? 0) with false. change (92 =? 34) with false. change (92 =? 92) with true. change (simple_escape 117) with false.
    change (117 =? 117) with true. cbv iota.
    assert (Z0 : forall x, isxdigit x = true -> (x =? 0) = false).
    { intros x X. destruct (x =? 0) eqn:E; [|reflexivity]. replace x with 0 in X by lia. discriminate X. }
    rewrite (Z0 a), (Z0 b), (Z0 c), (Z0 d) by assumption. rewrite H, H0, H1, H2. rewrite IHB. f_equal. rewrite !len_cons. lia.
Qed.

(** * The loop does not depend on its fuel *)
Lemma prim_scan_first : forall c t pos e u, prim_scan (c :: t) pos = Some (e, u) -> (c =? 0) = false ->
  (c =? 125) || (c =? 93) = false -> memb c [9; 13; 10; 32] = false -> (c =? 58) = false -> (c =? 44) = false ->
  32 < c < 127 /\ prim_scan t (pos + 1) = Some (e, u).
Proof.
  intros c t pos e u H Z0 E2 E4 E5 E6. cbn [prim_scan] in H. rewrite Z0 in H.
  unfold memb in E4. cbn [existsb] in E4.
  replace (ends_primitive c) with false in H by (unfold ends_primitive, memb; cbn [existsb]; lia).
  destruct ((c <? 32) || (127 <=? c)) eqn:R; [discriminate|]. split; [lia|exact H].
Qed.
Lemma loop_fuel : forall f f' s cap p n, (length s < f)%nat -> (length s < f')%nat -> jsmn_loop f s cap p n = jsmn_loop f' s cap p n.
Proof.
  induction f as [|f IH]; intros f' s cap p n L L'; [lia|].
  destruct f' as [|f']; [lia|]. cbn [jsmn_loop]. destruct s as [|c t]; [reflexivity|].
  cbn [length] in L, L'.
  assert (N : forall p n, jsmn_loop f t cap p n = jsmn_loop f' t cap p n) by (intros; apply IH; lia).
  destruct (c =? 0) eqn:E0; [reflexivity|].
  destruct ((c =? 123) || (c =? 91)) eqn:E1.
  { destruct cap; [|apply N]. destruct (jsmn_new_token _ _ _); [|reflexivity]. destruct (bump_super _); cbn [bind]; [apply N|reflexivity]. }
  destruct ((c =? 125) || (c =? 93)) eqn:E2.
  { destruct cap; [|apply N]. destruct (close_bracket _ _); [apply N|reflexivity]. }
  destruct (c =? 34) eqn:E3.
  { destruct (str_scan SPlain t (p_pos p + 1)) as [e u| |] eqn:S; try reflexivity.
    apply str_scan_shorter in S as [S _].
    destruct cap; [|apply IH; lia]. destruct (jsmn_new_token _ _ _); [|reflexivity]. destruct (bump_super _); cbn [bind]; [|reflexivity]. apply IH; lia. }
  destruct (memb c [9; 13; 10; 32]) eqn:E4; [apply N|].
  destruct (c =? 58) eqn:E5; [apply N|].
  destruct (c =? 44) eqn:E6.
  { destruct cap; [|apply N]. destruct (comma p); cbn [bind]; [apply N|reflexivity]. }
  destruct (prim_scan (c :: t) (p_pos p)) as [[e u]|] eqn:S; [|reflexivity].
  apply prim_scan_first in S as [_ S]; try assumption. apply prim_scan_shorter in S as [S _].
  destruct cap; [|apply IH; lia]. destruct (jsmn_new_token _ _ _); [|reflexivity]. destruct (bump_super _); cbn [bind]; [|reflexivity]. apply IH; lia.
Qed.

(** The loop without fuel, and its steps. *)
Definition run (s : bytes) (cap : option Z) (p : parser) (n : Z) : res (Z * parser) := jsmn_loop (S (length s)) s cap p n.
Lemma run_any : forall f s cap p n, (length s < f)%nat -> jsmn_loop f s cap p n = run s cap p n.
Proof. intros. apply loop_fuel; lia. Qed.

Lemma run_end : forall k p n, run [] (Some k) p n = Ok (if last_index is_open (p_toks p) (length (p_toks p)) =? -1 then n else JSMN_ERROR_PART, p).
Proof. intros. unfold run. cbn. now destruct (_ =? -1). Qed.
Lemma run_nul : forall t k p n, run (0 :: t) (Some k) p n = run [] (Some k) p n.
Proof. reflexivity. Qed.
Lemma run_open : forall c t k p n, c = 123 \/ c = 91 ->
  run (c :: t) (Some k) p n =
  match jsmn_new_token k p (token (if c =? 123 then JSMN_OBJECT else JSMN_ARRAY) (p_pos p) (-1) 0) with
  | None => Ok (JSMN_ERROR_NOMEM, p)
  | Some p1 => p2 <- bump_super p1 ;; run t (Some k) (at_pos (with_super p2 (len (p_toks p2) - 1)) (p_pos p + 1)) (n + 1)
  end.
Proof. intros c t k p n [->| ->]; reflexivity. Qed.
Lemma run_close : forall c t k p n, c = 125 \/ c = 93 ->
  run (c :: t) (Some k) p n =
  match close_bracket (if c =? 125 then JSMN_OBJECT else JSMN_ARRAY) p with
  | None => Ok (JSMN_ERROR_INVAL, p)
  | Some p1 => run t (Some k) (at_pos p1 (p_pos p + 1)) n
  end.
Proof. intros c t k p n [->| ->]; reflexivity. Qed.
Lemma run_string : forall t k p n,
  run (34 :: t) (Some k) p n =
  match str_scan SPlain t (p_pos p + 1) with
  | SInval => Ok (JSMN_ERROR_INVAL, p)
  | SPart => Ok (JSMN_ERROR_PART, p)
  | SFound e u =>
    match jsmn_new_token k p (token JSMN_STRING (p_pos p + 1) e 0) with
    | None => Ok (JSMN_ERROR_NOMEM, p)
    | Some p1 => p2 <- bump_super p1 ;; run u (Some k) (at_pos p2 (e + 1)) (n + 1)
    end
  end.
Proof.
  intros. unfold run at 1. cbn [length]. assert (F : (length t < S (length t))%nat) by lia. remember (S (length t)) as f eqn:Ef. clear Ef. cbn [jsmn_loop].
  cbn -[jsmn_loop str_scan jsmn_new_token bump_super].
  destruct (str_scan SPlain t (p_pos p + 1)) as [e u| |] eqn:S; try reflexivity.
  apply str_scan_shorter in S as [S _].
  change (token JSMN_STRING (p_pos p + 1) e 0) with {| t_type := JSMN_STRING; t_start := p_pos p + 1; t_end := e; t_size := 0 |}.
  destruct (jsmn_new_token _ _ _); [|reflexivity]. destruct (bump_super _); cbn [bind]; [|reflexivity]. apply run_any. cbn [length]. lia.
Qed.
Lemma run_space : forall c t cap p n, In c [9; 10; 13; 32] -> run (c :: t) cap p n = run t cap (at_pos p (p_pos p + 1)) n.
Proof. intros c t cap p n H. cbn [In] in H. destruct H as [<-|[<-|[<-|[<-|[]]]]]; reflexivity. Qed.
Lemma run_colon : forall t cap p n, run (58 :: t) cap p n = run t cap (at_pos (with_super p (len (p_toks p) - 1)) (p_pos p + 1)) n.
Proof. reflexivity. Qed.
Lemma run_comma : forall t k p n, run (44 :: t) (Some k) p n = (p1 <- comma p ;; run t (Some k) (at_pos p1 (p_pos p + 1)) n).
Proof. reflexivity. Qed.
(** Characters that start a bare word. *)
Definition bare (c : Z) : bool :=
  negb (memb c [0; 123; 91; 125; 93; 34; 9; 13; 10; 32; 58; 44]).
Lemma run_prim : forall c t k p n, bare c = true ->
  run (c :: t) (Some k) p n =
  match prim_scan (c :: t) (p_pos p) with
  | None => Ok (JSMN_ERROR_INVAL, p)
  | Some (e, u) =>
    match jsmn_new_token k p (token JSMN_PRIMITIVE (p_pos p) e 0) with
    | None => Ok (JSMN_ERROR_NOMEM, p)
    | Some p1 => p2 <- bump_super p1 ;; run u (Some k) (at_pos p2 e) (n + 1)
    end
  end.
Proof.
  intros c t k p n B. unfold bare, memb in B. cbn [existsb] in B. unfold run at 1. cbn [length]. assert (F : (length t < S (length t))%nat) by lia. remember (S (length t)) as f eqn:Ef. clear Ef. cbn [jsmn_loop].
  assert (M : memb c [9; 13; 10; 32] = false) by (unfold memb; cbn [existsb]; lia).
  replace (c =? 0) with false by lia. replace ((c =? 123) || (c =? 91)) with false by lia. replace ((c =? 125) || (c =? 93)) with false by lia.
  replace (c =? 34) with false by lia. rewrite M. replace (c =? 58) with false by lia. replace (c =? 44) with false by lia.
  destruct (prim_scan (c :: t) (p_pos p)) as [[e u]|] eqn:S; [|reflexivity].
  apply prim_scan_first in S as [_ S]; try lia; try assumption. apply prim_scan_shorter in S as [S _].
  change (token JSMN_PRIMITIVE (p_pos p) e 0) with {| t_type := JSMN_PRIMITIVE; t_start := p_pos p; t_end := e; t_size := 0 |}.
  destruct (jsmn_new_token _ _ _); [|reflexivity]. destruct (bump_super _); cbn [bind]; [|reflexivity]. apply run_any. cbn [length]. lia.
Qed.

(** * Token lists *)
Lemma set_nth_app1 : forall A n (a b : list A) v, (n < length a)%nat -> set_nth n (a ++ b) v = set_nth n a v ++ b.
Proof. induction n as [|n IH]; intros [|x a] b v L; cbn in *; try lia; [reflexivity|]. f_equal. apply IH. lia. Qed.
Lemma set_nth_app2 : forall A (a b : list A) x v, set_nth (length a) (a ++ x :: b) v = a ++ v :: b.
Proof. induction a as [|y a IH]; intros; cbn; [reflexivity|]. f_equal. apply IH. Qed.
Lemma nth_set_nth_eq : forall A n (l : list A) v d, (n < length l)%nat -> nth n (set_nth n l v) d = v.
Proof. induction n as [|n IH]; intros [|x l] v d L; cbn in *; try lia; [reflexivity|]. apply IH. lia. Qed.
Lemma nth_set_nth_neq : forall A n m (l : list A) v d, n <> m -> nth m (set_nth n l v) d = nth m l d.
Proof. induction n as [|n IH]; intros [|m] [|x l] v d N; cbn; try lia; try reflexivity. apply IH. lia. Qed.
Lemma length_set_nth : forall A n (l : list A) v, length (set_nth n l v) = length l.
Proof. induction n as [|n IH]; intros [|x l] v; cbn; try reflexivity. f_equal. apply IH. Qed.

Lemma last_index_ext : forall f l l' n, (forall i, (i < n)%nat -> f (nth i l tok0) = f (nth i l' tok0)) -> last_index f l n = last_index f l' n.
Proof. induction n as [|n IH]; intro H; [reflexivity|]. cbn [last_index]. rewrite H by lia. rewrite IH; [reflexivity|]. intros. apply H. lia. Qed.
Lemma last_index_spec : forall f l n, (last_index f l n = -1 /\ forall i, (i < n)%nat -> f (nth i l tok0) = false)
  \/ exists i, (i < n)%nat /\ last_index f l n = Z.of_nat i /\ f (nth i l tok0) = true /\ forall j, (i < j < n)%nat -> f (nth j l tok0) = false.
Proof.
  induction n as [|n IH]; cbn [last_index]; [left; split; [reflexivity|lia]|].
  destruct (f (nth n l tok0)) eqn:E.
  - right. exists n. split; [lia|]. split; [reflexivity|]. split; [exact E|]. lia.
  - destruct IH as [[-> H]|(i & L & -> & Fi & H)].
    + left. split; [reflexivity|]. intros i Hi. destruct (Nat.eq_dec i n) as [->|]; [exact E|]. apply H. lia.
    + right. exists i. split; [lia|]. split; [reflexivity|]. split; [exact Fi|]. intros j Hj. destruct (Nat.eq_dec j n) as [->|]; [exact E|]. apply H. lia.
Qed.

Definition last_open (l : list tok) : Z := last_index is_open l (length l).
Definition closed (t : tok) : Prop := is_open t = false.
Lemma last_index_app : forall f a b n, (n <= length a)%nat -> last_index f (a ++ b) n = last_index f a n.
Proof. intros f a b n L. apply last_index_ext. intros i Hi. now rewrite app_nth1 by lia. Qed.
Lemma last_index_skip : forall f a b, Forall (fun t => f t = false) b -> last_index f (a ++ b) (length (a ++ b)) = last_index f a (length a).
Proof.
  intros f a b. induction b as [|t b IH] using rev_ind; intro F.
  - now rewrite app_nil_r.
  - apply Forall_app in F as [F1 F2]. inversion F2; subst.
    replace (length (a ++ b ++ [t])) with (S (length (a ++ b))) by (rewrite !app_length; cbn; lia).
    cbn [last_index]. rewrite app_assoc, nth_middle, H1. rewrite last_index_app by lia. auto.
Qed.
Lemma last_index_hit : forall f a t b, f t = true -> Forall (fun t => f t = false) b ->
  last_index f (a ++ t :: b) (length (a ++ t :: b)) = len a.
Proof.
  intros f a t b T F. replace (a ++ t :: b) with ((a ++ [t]) ++ b) by (now rewrite <- app_assoc). rewrite last_index_skip by exact F.
  replace (length (a ++ [t])) with (S (length a)) by (rewrite app_length; cbn; lia). cbn [last_index]. now rewrite nth_middle, T.
Qed.
Lemma last_index_range : forall f l n, -1 <= last_index f l n < Z.of_nat n \/ n = O.
Proof. intros f l n. destruct (last_index_spec f l n) as [[-> _]|(i & L & -> & _)]; destruct n; lia. Qed.

Definition inc (t : tok) : tok := {| t_type := t_type t; t_start := t_start t; t_end := t_end t; t_size := t_size t + 1 |}.
Definition bump (i : Z) (l : list tok) : list tok := if i =? -1 then l else set_nth (Z.to_nat i) l (inc (nth (Z.to_nat i) l tok0)).
Definition ok_super (i : Z) (l : list tok) : Prop := -1 <= i < len l.
Lemma bump_super_ok : forall p, ok_super (p_super p) (p_toks p) -> bump_super p = Ok (with_toks p (bump (p_super p) (p_toks p))).
Proof.
  intros p S. unfold bump_super, bump, ok_super in *. destruct (p_super p =? -1) eqn:E; [destruct p; reflexivity|].
  unfold tok_at. replace ((0 <=? p_super p) && (p_super p <? len (p_toks p))) with true by lia. reflexivity.
Qed.
Lemma length_bump : forall i l, length (bump i l) = length l.
Proof. intros. unfold bump. destruct (i =? -1); [reflexivity|]. apply length_set_nth. Qed.
Lemma len_bump : forall i l, len (bump i l) = len l.
Proof. intros. unfold len. now rewrite length_bump. Qed.
Lemma nth_bump : forall i l j, nth j (bump i l) tok0 = nth j l tok0 \/ nth j (bump i l) tok0 = inc (nth j l tok0).
Proof.
  intros. unfold bump. destruct (i =? -1); [auto|].
  destruct (Nat.eq_dec (Z.to_nat i) j) as [<-|N]; [|left; now apply nth_set_nth_neq].
  destruct (Nat.lt_ge_cases (Z.to_nat i) (length l)) as [L|G].
  - right. now apply nth_set_nth_eq.
  - left. rewrite !nth_overflow; auto. now rewrite length_set_nth.
Qed.
Lemma last_index_bump : forall f, (forall t, f (inc t) = f t) -> forall i l n, last_index f (bump i l) n = last_index f l n.
Proof. intros f F i l n. apply last_index_ext. intros j _. destruct (nth_bump i l j) as [->| ->]; auto. Qed.
Lemma last_open_bump : forall i l, last_open (bump i l) = last_open l.
Proof. intros. unfold last_open. rewrite length_bump. now apply last_index_bump. Qed.
Lemma bump_app1 : forall i a b, -1 <= i < len a -> bump i (a ++ b) = bump i a ++ b.
Proof.
  intros i a b R. unfold bump. destruct (i =? -1) eqn:E; [reflexivity|]. unfold len in R.
  rewrite set_nth_app1 by lia. now rewrite app_nth1 by lia.
Qed.
Lemma bump_mid : forall a t b, bump (len a) (a ++ t :: b) = a ++ inc t :: b.
Proof.
  intros. unfold bump, len. replace (Z.of_nat (length a) =? -1) with false by lia. rewrite Nat2Z.id, nth_middle. apply set_nth_app2.
Qed.
Lemma bump_last : forall a t, bump (len a) (a ++ [t]) = a ++ [inc t].
Proof. intros. apply bump_mid. Qed.

Definition P (pos sup : Z) (l : list tok) : parser := {| p_pos := pos; p_super := sup; p_toks := l |}.
Definition Fits (s : bytes) (k : Z) (p : parser) (n : Z) (m : Z) (out : res (Z * parser)) (K : Prop) : Prop :=
  if len (p_toks p) + m <=? k then K else exists q, out = Ok (JSMN_ERROR_NOMEM, q).

(** * Steps on JSON texts *)
Lemma new_token : forall k pos sup l t, jsmn_new_token k (P pos sup l) t = if k <=? len l then None else Some (P pos sup (l ++ [t])).
Proof. reflexivity. Qed.
Lemma add_token : forall k pos sup l t (f : parser -> res (Z * parser)), ok_super sup l ->
  match jsmn_new_token k (P pos sup l) t with
  | None => Ok (JSMN_ERROR_NOMEM, P pos sup l)
  | Some p1 => p2 <- bump_super p1 ;; f p2
  end = if k <=? len l then Ok (JSMN_ERROR_NOMEM, P pos sup l) else f (P pos sup (bump sup l ++ [t])).
Proof.
  intros k pos sup l t f S. rewrite new_token. destruct (k <=? len l); [reflexivity|].
  rewrite bump_super_ok by (unfold ok_super in *; cbn [p_super p_toks P]; rewrite len_app; cbn; lia).
  cbn [bind]. cbn [p_super p_toks P with_toks p_pos]. rewrite bump_app1 by exact S. reflexivity.
Qed.
Lemma run_ws : forall w, ws w -> forall t cap pos sup l n, run (w ++ t) cap (P pos sup l) n = run t cap (P (pos + len w) sup l) n.
Proof.
  intros w W. induction W as [|c w H W IH]; intros; cbn [app]; [now rewrite Z.add_0_r|].
  rewrite run_space by exact H. cbn [P at_pos p_pos]. change (at_pos (P pos sup l) (pos + 1)) with (P (pos + 1) sup l). rewrite IH, len_cons. now replace (pos + (len w + 1)) with (pos + 1 + len w) by lia.
Qed.

(** Where a bare word ends. *)
Definition stops (s : bytes) : Prop := match s with [] => True | c :: _ => c = 0 \/ ends_primitive c = true end.
Lemma stops_ws : forall w s, ws w -> stops s -> stops (w ++ s).
Proof. intros w s W S. destruct W as [|c w H W]; [exact S|]. cbn [app stops]. right. cbn [In] in H. destruct H as [<-|[<-|[<-|[<-|[]]]]]; reflexivity. Qed.
Lemma prim_scan_word : forall a rest pos, Forall prim_char a -> stops rest -> prim_scan (a ++ rest) pos = Some (pos + len a, rest).
Proof.
  induction a as [|c a IH]; intros rest pos F S; cbn [app].
  - rewrite Z.add_0_r. destruct rest as [|c r]; [reflexivity|]. cbn [prim_scan]. cbn [stops] in S. destruct S as [->|E]; [reflexivity|]. rewrite E. now destruct (c =? 0).
  - inversion F as [|? ? C F']; subst. cbn [prim_scan].
    assert (R : 33 <= c <= 126 /\ ends_primitive c = false).
    { destruct C as [C|C].
      - unfold isalnum, isalpha, isupper, islower, isdigit in C. unfold ends_primitive, memb. cbn [existsb]. lia.
      - cbn in C. destruct C as [<-|[<-|[<-|[]]]]; split; try lia; reflexivity. }
    replace (c =? 0) with false by lia. destruct R as [R ->]. replace ((c <? 32) || (127 <=? c)) with false by lia.
    rewrite IH by assumption. rewrite len_cons. do 2 f_equal. lia.
Qed.
Lemma prim_bare : forall c, prim_char c -> bare c = true.
Proof.
  intros c [C|C].
  - unfold isalnum, isalpha, isupper, islower, isdigit in C. unfold bare, memb. cbn [existsb]. lia.
  - cbn in C. destruct C as [<-|[<-|[<-|[]]]]; reflexivity.
Qed.

Lemma word_exact : forall t rest k pos sup l n, t <> [] -> Forall prim_char t -> stops rest -> ok_super sup l ->
  run (t ++ rest) (Some k) (P pos sup l) n =
  if k <=? len l then Ok (JSMN_ERROR_NOMEM, P pos sup l)
  else run rest (Some k) (P (pos + len t) sup (bump sup l ++ [token JSMN_PRIMITIVE pos (pos + len t) 0])) (n + 1).
Proof.
  intros t rest k pos sup l n N F S O. destruct t as [|c t]; [contradiction|]. inversion F; subst.
  cbn [app]. rewrite run_prim by now apply prim_bare. change (c :: t ++ rest) with ((c :: t) ++ rest).
  rewrite prim_scan_word by assumption. cbn [P p_pos]. change {| p_pos := pos; p_super := sup; p_toks := l |} with (P pos sup l).
  rewrite (add_token k pos sup l _ (fun p2 => run rest (Some k) (at_pos p2 (pos + len (c :: t))) (n + 1)) O). reflexivity.
Qed.
Lemma string_exact : forall t rest k pos sup l n, body t -> ok_super sup l ->
  run ([34] ++ t ++ [34] ++ rest) (Some k) (P pos sup l) n =
  if k <=? len l then Ok (JSMN_ERROR_NOMEM, P pos sup l)
  else run rest (Some k) (P (pos + (len t + 2)) sup (bump sup l ++ [token JSMN_STRING (pos + 1) (pos + 1 + len t) 0])) (n + 1).
Proof.
  intros t rest k pos sup l n B O. cbn [app]. rewrite run_string. cbn [P p_pos]. rewrite str_scan_complete by exact B.
  change {| p_pos := pos; p_super := sup; p_toks := l |} with (P pos sup l).
  rewrite (add_token k pos sup l _ (fun p2 => run rest (Some k) (at_pos p2 (pos + 1 + len t + 1)) (n + 1)) O).
  destruct (k <=? len l); [reflexivity|]. cbn [at_pos P p_super p_toks]. now replace (pos + (len t + 2)) with (pos + 1 + len t + 1) by lia.
Qed.

Lemma open_exact : forall c rest k pos sup l n, c = 123 \/ c = 91 -> ok_super sup l ->
  run (c :: rest) (Some k) (P pos sup l) n =
  if k <=? len l then Ok (JSMN_ERROR_NOMEM, P pos sup l)
  else run rest (Some k) (P (pos + 1) (len l) (bump sup l ++ [token (if c =? 123 then JSMN_OBJECT else JSMN_ARRAY) pos (-1) 0])) (n + 1).
Proof.
  intros c rest k pos sup l n C O. rewrite run_open by exact C. cbn [P p_pos].
  change {| p_pos := pos; p_super := sup; p_toks := l |} with (P pos sup l).
  rewrite (add_token k pos sup l _ (fun p2 => run rest (Some k) (at_pos (with_super p2 (len (p_toks p2) - 1)) (pos + 1)) (n + 1)) O).
  destruct (k <=? len l); [reflexivity|]. cbn [P with_super at_pos p_toks p_pos p_super]. rewrite len_app, len_bump.
  replace (len l + len [token (if c =? 123 then JSMN_OBJECT else JSMN_ARRAY) pos (-1) 0] - 1) with (len l) by (cbn; lia). reflexivity.
Qed.
Lemma close_exact : forall c rest k pos sup l0 a m ks n, c = 125 \/ c = 93 -> 0 <= a -> 0 <= pos -> Forall closed ks ->
  run (c :: rest) (Some k) (P pos sup (l0 ++ token (if c =? 125 then JSMN_OBJECT else JSMN_ARRAY) a (-1) m :: ks)) n =
  run rest (Some k) (P (pos + 1) (last_open l0) (l0 ++ token (if c =? 125 then JSMN_OBJECT else JSMN_ARRAY) a (pos + 1) m :: ks)) n.
Proof.
  intros c rest k pos sup l0 a m ks n C A B F. rewrite run_close by exact C. cbn [P p_pos]. unfold close_bracket.
  cbn [P p_toks]. set (ty := if c =? 125 then JSMN_OBJECT else JSMN_ARRAY).
  rewrite last_index_hit; [|unfold is_open; cbn; lia|exact F].
  replace (len l0 =? -1) with false by (pose proof (len_nonneg _ l0); lia).
  replace (Z.to_nat (len l0)) with (length l0) by (unfold len; lia). rewrite nth_middle. cbn [token t_type t_start t_size].
  replace (jtype_eqb ty ty) with true by (unfold ty; now destruct (c =? 125)). cbn [negb].
  rewrite set_nth_app2. cbn [last_index]. rewrite nth_middle. unfold is_open at 1. cbn [t_start t_end p_pos P].
  rewrite last_index_app by lia.
  replace (negb (a =? -1) && (pos + 1 =? -1)) with false by lia. reflexivity.
Qed.
Lemma comma_exact : forall rest k pos sup l0 t ks n, is_container t = true -> is_open t = true -> Forall closed ks ->
  sup = len l0 \/ (0 <= sup < len (l0 ++ t :: ks) /\ is_container (nth (Z.to_nat sup) (l0 ++ t :: ks) tok0) = false) ->
  run (44 :: rest) (Some k) (P pos sup (l0 ++ t :: ks)) n = run rest (Some k) (P (pos + 1) (len l0) (l0 ++ t :: ks)) n.
Proof.
  intros rest k pos sup l0 t ks n T Op F S. rewrite run_comma. unfold comma. cbn [P p_super p_toks].
  pose proof (len_nonneg _ l0). replace (sup =? -1) with false by lia.
  unfold tok_at. assert (L : 0 <= sup < len (l0 ++ t :: ks)).
  { destruct S as [->|[S _]]; [|exact S]. rewrite len_app, len_cons. pose proof (len_nonneg _ ks). lia. }
  replace ((0 <=? sup) && (sup <? len (l0 ++ t :: ks))) with true by lia. cbn [bind].
  destruct S as [->|[_ S]].
  - unfold len at 1. rewrite Nat2Z.id, nth_middle, T. reflexivity.
  - rewrite S. rewrite last_index_hit; [|now rewrite T, Op|].
    + replace (len l0 =? -1) with false by lia. reflexivity.
    + eapply Forall_impl; [|exact F]. cbn beta. unfold closed. intros a ->. apply andb_false_r.
Qed.

Lemma closed_token : forall ty a b s, b <> -1 -> closed (token ty a b s).
Proof. intros. unfold closed, is_open. cbn. lia. Qed.

Scheme json_mut := Induction for json Sort Prop
with items_mut := Induction for items Sort Prop
with members_mut := Induction for members Sort Prop.
Combined Scheme json_all from json_mut, items_mut, members_mut.

Lemma tokens_closed :
  (forall v n, 0 <= n -> Forall closed (tokens v n))
  /\ (forall l f n, 0 <= n -> Forall closed (items_tokens f l n))
  /\ (forall l f n, 0 <= n -> Forall closed (members_tokens f l n)).
Proof.
  apply json_all.
  - intros t n N. constructor; [|constructor]. apply closed_token. pose proof (len_nonneg _ t). lia.
  - intros t n N. constructor; [|constructor]. apply closed_token. pose proof (len_nonneg _ t). lia.
  - intros w l IH n N. cbn [tokens]. constructor; [|apply IH; pose proof (len_nonneg _ w); lia].
    apply closed_token. pose proof (len_nonneg _ (text (JArr w l))). lia.
  - intros w l IH n N. cbn [tokens]. constructor; [|apply IH; pose proof (len_nonneg _ w); lia].
    apply closed_token. pose proof (len_nonneg _ (text (JObj w l))). lia.
  - constructor.
  - intros w1 v IHv w2 l IHl f n N. cbn [items_tokens]. pose proof (len_nonneg _ w1). pose proof (len_nonneg _ w2). pose proof (len_nonneg _ (text v)).
    apply Forall_app. split; [apply IHv|apply IHl]; destruct f; lia.
  - constructor.
  - intros w1 key w2 w3 v IHv w4 l IHl f n N. cbn [members_tokens].
    pose proof (len_nonneg _ w1). pose proof (len_nonneg _ w2). pose proof (len_nonneg _ w3). pose proof (len_nonneg _ w4). pose proof (len_nonneg _ key). pose proof (len_nonneg _ (text v)).
    constructor; [apply closed_token; destruct f; lia|].
    apply Forall_app. split; [apply IHv|apply IHl]; destruct f; lia.
Qed.

(** ** The tokenizer on a JSON text *)
Definition fits (k : Z) (l : list tok) (m : Z) (out : res (Z * parser)) (K : Prop) : Prop :=
  if len l + m <=? k then K else exists q, out = Ok (JSMN_ERROR_NOMEM, q).

Lemma fits_no : forall k l m out K, k < len l + m -> (exists q, out = Ok (JSMN_ERROR_NOMEM, q)) -> fits k l m out K.
Proof. intros. unfold fits. replace (len l + m <=? k) with false by lia. assumption. Qed.

Lemma json_exact :
  (forall v, valid v -> forall rest k pos sup l n, 0 <= pos -> stops rest -> ok_super sup l ->
     fits k l (len (tokens v pos)) (run (text v ++ rest) (Some k) (P pos sup l) n)
       (exists sup', (sup' = sup \/ sup' = last_open l) /\
        run (text v ++ rest) (Some k) (P pos sup l) n
        = run rest (Some k) (P (pos + len (text v)) sup' (bump sup l ++ tokens v pos)) (n + len (tokens v pos))))
  /\ (forall its, valid_items its -> forall first rest k pos l0 a m ks n, 0 <= pos -> 0 <= a -> stops rest -> Forall closed ks -> len (l0 ++ token JSMN_ARRAY a (-1) m :: ks) <= k ->
     fits k (l0 ++ token JSMN_ARRAY a (-1) m :: ks) (len (items_tokens first its pos))
       (run (items_text first its ++ rest) (Some k) (P pos (len l0) (l0 ++ token JSMN_ARRAY a (-1) m :: ks)) n)
       (run (items_text first its ++ rest) (Some k) (P pos (len l0) (l0 ++ token JSMN_ARRAY a (-1) m :: ks)) n
        = run rest (Some k) (P (pos + len (items_text first its)) (len l0)
            (l0 ++ token JSMN_ARRAY a (-1) (m + count_items its) :: ks ++ items_tokens first its pos)) (n + len (items_tokens first its pos))))
  /\ (forall ms, valid_members ms -> forall (first : bool) rest k pos sup l0 a m ks n, 0 <= pos -> 0 <= a -> stops rest -> Forall closed ks ->
     let L := l0 ++ token JSMN_OBJECT a (-1) m :: ks in
     let in_object (i : Z) (l : list tok) := i = len l0 \/ (0 <= i < len l /\ is_container (nth (Z.to_nat i) l tok0) = false) in
     (if first then sup = len l0 else in_object sup L) -> len L <= k ->
     fits k L (len (members_tokens first ms pos))
       (run (members_text first ms ++ rest) (Some k) (P pos sup L) n)
       (exists sup', run (members_text first ms ++ rest) (Some k) (P pos sup L) n
        = run rest (Some k) (P (pos + len (members_text first ms)) sup'
            (l0 ++ token JSMN_OBJECT a (-1) (m + count_members ms) :: ks ++ members_tokens first ms pos)) (n + len (members_tokens first ms pos)))).
Proof.
  apply json_all.
  - (* word *) intros t [N F] rest k pos sup l n Hp S O. cbn [tokens text]. rewrite (word_exact t rest k pos sup l n N F S O).
    unfold fits. change (len [token JSMN_PRIMITIVE pos (pos + len t) 0]) with 1.
    destruct (k <=? len l) eqn:E.
    + replace (len l + 1 <=? k) with false by lia. eauto.
    + replace (len l + 1 <=? k) with true by lia. exists sup. auto.
  - (* string *) intros t B rest k pos sup l n Hp S O. cbn [tokens text valid] in *. rewrite <- !app_assoc. rewrite (string_exact t rest k pos sup l n B O).
    unfold fits. change (len [token JSMN_STRING (pos + 1) (pos + 1 + len t) 0]) with 1.
    destruct (k <=? len l) eqn:E.
    + replace (len l + 1 <=? k) with false by lia. eauto.
    + replace (len l + 1 <=? k) with true by lia. exists sup. split; [auto|].
      replace (len ([34] ++ t ++ [34])) with (len t + 2) by (rewrite !len_app; change (len [34]) with 1; lia). reflexivity.
  - (* array *) intros w its IH [W V] rest k pos sup l n Hp S O. cbn [tokens]. set (A := token JSMN_ARRAY pos (pos + len (text (JArr w its))) (count_items its)).
    cbn [text]. rewrite <- !app_assoc. cbn [Datatypes.app]. rewrite (open_exact 91) by auto. change (91 =? 123) with false. cbv iota.
    unfold fits. rewrite len_cons. pose proof (len_nonneg _ w) as Lw. pose proof (len_nonneg _ (items_tokens true its (pos + 1 + len w))) as Li.
    destruct (k <=? len l) eqn:E.
    { replace (len l + (len (items_tokens true its (pos + 1 + len w)) + 1) <=? k) with false by lia. eauto. }
    rewrite run_ws by exact W. 
    specialize (IH V true (93 :: rest) k (pos + 1 + len w) (bump sup l) pos 0 [] (n + 1)).
    rewrite len_bump in IH. specialize (IH ltac:(lia) Hp (or_intror eq_refl) (Forall_nil _)). unfold fits in IH.
    replace (len (bump sup l ++ [token JSMN_ARRAY pos (-1) 0])) with (len l + 1) in IH by (rewrite len_app, len_bump; reflexivity).
    specialize (IH ltac:(lia)).
    replace (len l + (len (items_tokens true its (pos + 1 + len w)) + 1)) with (len l + 1 + len (items_tokens true its (pos + 1 + len w))) by lia.
    destruct (_ <=? k) in *; [|destruct IH as [q IH]; exists q; exact IH].
    rewrite IH. cbn [Datatypes.app]. pose proof (len_nonneg _ (items_text true its)) as Lt. pose proof (close_exact 93 rest k (pos + 1 + len w + len (items_text true its)) (len l) (bump sup l) pos (0 + count_items its)
      (items_tokens true its (pos + 1 + len w)) (n + 1 + len (items_tokens true its (pos + 1 + len w))) (or_intror eq_refl) Hp ltac:(lia)
      (proj1 (proj2 tokens_closed) its true (pos + 1 + len w) ltac:(lia))) as CL. cbn [Z.eqb Pos.eqb] in CL.
    rewrite CL.
    exists (last_open (bump sup l)). split; [right; apply last_open_bump|].
    assert (T : len (text (JArr w its)) = 1 + len w + len (items_text true its) + 1) by (cbn [text]; rewrite !len_app; change (len [91]) with 1; change (len [93]) with 1; lia).
    cbn [text] in T. cbn [Datatypes.app] in T. unfold A. cbn [text Datatypes.app]. rewrite T.
    replace (n + (len (items_tokens true its (pos + 1 + len w)) + 1)) with (n + 1 + len (items_tokens true its (pos + 1 + len w))) by lia.
    replace (pos + (1 + len w + len (items_text true its) + 1)) with (pos + 1 + len w + len (items_text true its) + 1) by lia.
    reflexivity.
  - (* object *) intros w ms IH [W V] rest k pos sup l n Hp S O. cbn [tokens]. set (A := token JSMN_OBJECT pos (pos + len (text (JObj w ms))) (count_members ms)).
    cbn [text]. rewrite <- !app_assoc. cbn [Datatypes.app]. rewrite (open_exact 123) by auto. change (123 =? 123) with true. cbv iota.
    unfold fits. rewrite len_cons. pose proof (len_nonneg _ w) as Lw. pose proof (len_nonneg _ (members_tokens true ms (pos + 1 + len w))) as Li.
    destruct (k <=? len l) eqn:E.
    { replace (len l + (len (members_tokens true ms (pos + 1 + len w)) + 1) <=? k) with false by lia. eauto. }
    rewrite run_ws by exact W.
    specialize (IH V true (125 :: rest) k (pos + 1 + len w) (len (bump sup l)) (bump sup l) pos 0 [] (n + 1)).
    specialize (IH ltac:(lia) Hp (or_intror eq_refl) (Forall_nil _) eq_refl). rewrite len_bump in IH. unfold fits in IH.
    replace (len (bump sup l ++ [token JSMN_OBJECT pos (-1) 0])) with (len l + 1) in IH by (rewrite len_app, len_bump; reflexivity).
    specialize (IH ltac:(lia)).
    replace (len l + (len (members_tokens true ms (pos + 1 + len w)) + 1)) with (len l + 1 + len (members_tokens true ms (pos + 1 + len w))) by lia.
    destruct (_ <=? k) in *; [|destruct IH as [q IH]; exists q; exact IH].
    destruct IH as [sup1 IH]. rewrite IH. cbn [Datatypes.app]. pose proof (len_nonneg _ (members_text true ms)) as Lt. pose proof (close_exact 125 rest k (pos + 1 + len w + len (members_text true ms)) sup1 (bump sup l) pos (0 + count_members ms)
      (members_tokens true ms (pos + 1 + len w)) (n + 1 + len (members_tokens true ms (pos + 1 + len w))) (or_introl eq_refl) Hp ltac:(lia)
      (proj2 (proj2 tokens_closed) ms true (pos + 1 + len w) ltac:(lia))) as CL. cbn [Z.eqb Pos.eqb] in CL.
    rewrite CL.
    exists (last_open (bump sup l)). split; [right; apply last_open_bump|].
    assert (T : len (text (JObj w ms)) = 1 + len w + len (members_text true ms) + 1) by (cbn [text]; rewrite !len_app; change (len [123]) with 1; change (len [125]) with 1; lia).
    cbn [text] in T. cbn [Datatypes.app] in T. unfold A. cbn [text Datatypes.app]. rewrite T.
    replace (n + (len (members_tokens true ms (pos + 1 + len w)) + 1)) with (n + 1 + len (members_tokens true ms (pos + 1 + len w))) by lia.
    replace (pos + (1 + len w + len (members_text true ms) + 1)) with (pos + 1 + len w + len (members_text true ms) + 1) by lia.
    reflexivity.
  - (* no items *) intros _ first rest k pos l0 a m ks n Hp Ha S F K. cbn [items_text items_tokens count_items Datatypes.app].
    unfold fits. change (len (@nil tok)) with 0. change (len (@nil Z)) with 0. rewrite !Z.add_0_r, app_nil_r.
    replace (_ <=? k) with true by lia. reflexivity.
  - (* item *) intros w1 v IHv w2 its IHl (W1 & V & W2 & Vl) first rest k pos l0 a m ks n Hp Ha S F K.
    cbn [items_text items_tokens count_items]. set (L := l0 ++ token JSMN_ARRAY a (-1) m :: ks).
    assert (H0 : run (((if first then [] else [44]) ++ w1 ++ text v ++ w2 ++ items_text false its) ++ rest) (Some k) (P pos (len l0) L) n
      = run (text v ++ w2 ++ items_text false its ++ rest) (Some k) (P (pos + (if first then 0 else 1) + len w1) (len l0) L) n).
    { rewrite <- !app_assoc. destruct first; cbn [Datatypes.app].
      - rewrite run_ws by exact W1. now rewrite Z.add_0_r.
      - unfold L. rewrite comma_exact; [|reflexivity|unfold is_open; cbn; lia|exact F|auto]. now rewrite run_ws by exact W1. }
    rewrite H0. set (b := pos + (if first then 0 else 1) + len w1).
    assert (Hb : 0 <= b) by (unfold b; pose proof (len_nonneg _ w1); destruct first; lia).
    specialize (IHv V (w2 ++ items_text false its ++ rest) k b (len l0) L n Hb).
    assert (S1 : stops (w2 ++ items_text false its ++ rest)).
    { apply stops_ws; [exact W2|]. destruct its; [exact S|]. right. reflexivity. }
    assert (O1 : ok_super (len l0) L). { unfold ok_super, L. rewrite len_app, len_cons. pose proof (len_nonneg _ ks). pose proof (len_nonneg _ l0). lia. }
    specialize (IHv S1 O1). unfold fits in *. rewrite len_app.
    pose proof (len_nonneg _ (text v)) as Lv. pose proof (len_nonneg _ w2) as L2.
    set (N := len (items_tokens false its (b + len (text v) + len w2))) in *. assert (N0 : 0 <= N) by apply len_nonneg.
    destruct (len L + len (tokens v b) <=? k) eqn:E1.
    + destruct IHv as (sup' & Hs & ->). rewrite run_ws by exact W2.
      assert (Es : sup' = len l0).
      { destruct Hs as [->| ->]; [reflexivity|]. unfold last_open, L. apply last_index_hit; [unfold is_open; cbn; lia|exact F]. }
      subst sup'. replace (bump (len l0) L ++ tokens v b) with (l0 ++ token JSMN_ARRAY a (-1) (m + 1) :: (ks ++ tokens v b)) by (unfold L; rewrite bump_mid, <- app_assoc; reflexivity).
      specialize (IHl Vl false rest k (b + len (text v) + len w2) l0 a (m + 1) (ks ++ tokens v b) (n + len (tokens v b)) ltac:(lia) Ha S).
      specialize (IHl ltac:(apply Forall_app; split; [exact F|now apply (proj1 tokens_closed)])).
      fold N in IHl.
      replace (len (l0 ++ token JSMN_ARRAY a (-1) (m + 1) :: ks ++ tokens v b)) with (len L + len (tokens v b)) in IHl by (unfold L; rewrite !len_app, !len_cons, !len_app; lia).
      specialize (IHl ltac:(lia)).
      replace (len L + (len (tokens v b) + N)) with (len L + len (tokens v b) + N) by lia.
      destruct (len L + len (tokens v b) + N <=? k); [|exact IHl]. rewrite IHl.
      replace (m + 1 + count_items its) with (m + (count_items its + 1)) by lia. rewrite <- app_assoc.
      replace (pos + len ((if first then [] else [44]) ++ w1 ++ text v ++ w2 ++ items_text false its)) with (b + len (text v) + len w2 + len (items_text false its)).
      2: { unfold b. rewrite !len_app. destruct first; change (len (@nil Z)) with 0; change (len [44]) with 1; lia. }
      replace (n + (len (tokens v b) + N)) with (n + len (tokens v b) + N) by lia. reflexivity.
    + replace (len L + (len (tokens v b) + N) <=? k) with false by lia. exact IHv.
  - (* no members *) intros _ first rest k pos sup l0 a m ks n Hp Ha S F L in_object Hs K. cbn [members_text members_tokens count_members Datatypes.app].
    unfold fits. change (len (@nil tok)) with 0. change (len (@nil Z)) with 0. rewrite !Z.add_0_r, app_nil_r.
    fold L. replace (_ <=? k) with true by lia. eauto.
  - (* member *) intros w1 key w2 w3 v IHv w4 ms IHl (W1 & B & W2 & W3 & V & W4 & Vl) first rest k pos sup l0 a m ks n Hp Ha S F L in_object Hs K.
    cbn [members_text members_tokens count_members].
    pose proof (len_nonneg _ w1) as L1. pose proof (len_nonneg _ w2) as L2. pose proof (len_nonneg _ w3) as L3. pose proof (len_nonneg _ w4) as L4.
    pose proof (len_nonneg _ key) as Lk. pose proof (len_nonneg _ (text v)) as Lv. pose proof (len_nonneg _ l0) as Ll. pose proof (len_nonneg _ ks) as Lks.
    assert (O1 : ok_super (len l0) L). { unfold ok_super, L. rewrite len_app, len_cons. lia. }
    set (b := pos + (if first then 0 else 1) + len w1). assert (Hb : 0 <= b) by (unfold b; destruct first; lia).
    assert (H0 : run (((if first then [] else [44]) ++ w1 ++ [34] ++ key ++ [34] ++ w2 ++ [58] ++ w3 ++ text v ++ w4 ++ members_text false ms) ++ rest) (Some k) (P pos sup L) n
      = run ([34] ++ key ++ [34] ++ w2 ++ [58] ++ w3 ++ text v ++ w4 ++ members_text false ms ++ rest) (Some k) (P b (len l0) L) n).
    { rewrite <- !app_assoc. unfold b. destruct first; cbn [Datatypes.app].
      - rewrite Hs, run_ws by exact W1. now rewrite Z.add_0_r.
      - unfold L. rewrite comma_exact; [|reflexivity|unfold is_open; cbn; lia|exact F|exact Hs]. now rewrite run_ws by exact W1. }
    rewrite H0. clear H0. rewrite (string_exact key _ k b (len l0) L n B O1).
    set (c := b + 2 + len key + len w2 + 1 + len w3).
    unfold fits in *. rewrite len_cons, len_app. set (N := len (members_tokens false ms (c + len (text v) + len w4))) in *. assert (N0 : 0 <= N) by apply len_nonneg.
    pose proof (len_nonneg _ (tokens v c)) as Nv.
    destruct (k <=? len L) eqn:E1. { replace (len L + (len (tokens v c) + N + 1) <=? k) with false by lia. eauto. }
    rewrite run_ws by exact W2. cbn [Datatypes.app]. rewrite run_colon. assert (BM : bump (len l0) L = l0 ++ inc (token JSMN_OBJECT a (-1) m) :: ks) by (unfold L; apply bump_mid). rewrite BM. cbn [P p_toks p_pos with_super at_pos].
    set (T1 := (l0 ++ inc (token JSMN_OBJECT a (-1) m) :: ks)).
    set (KT := token JSMN_STRING (b + 1) (b + 1 + len key) 0).
    match goal with |- context [at_pos ?q ?z] => change (at_pos q z) with (P (b + (len key + 2) + len w2 + 1) (len (T1 ++ [KT]) - 1) (T1 ++ [KT])) end.
    replace (len (T1 ++ [KT]) - 1) with (len T1) by (rewrite len_app; cbn; lia).
    rewrite run_ws by exact W3.
    replace (b + (len key + 2) + len w2 + 1 + len w3) with c by (unfold c; lia).
    assert (LT1 : len T1 = len L) by (unfold T1, L; rewrite !len_app, !len_cons; reflexivity).
    assert (S1 : stops (w4 ++ members_text false ms ++ rest)).
    { apply stops_ws; [exact W4|]. destruct ms; [exact S|]. right. reflexivity. }
    assert (O2 : ok_super (len T1) (T1 ++ [KT])). { unfold ok_super. rewrite len_app. cbn. pose proof (len_nonneg _ T1). lia. }
    assert (Hc : 0 <= c) by (unfold c; lia).
    specialize (IHv V (w4 ++ members_text false ms ++ rest) k c (len T1) (T1 ++ [KT]) (n + 1) Hc S1 O2).
    replace (len (T1 ++ [KT])) with (len L + 1) in IHv by (rewrite len_app, LT1; reflexivity).
    destruct (len L + 1 + len (tokens v c) <=? k) eqn:E2.
    2: { replace (len L + (len (tokens v c) + N + 1) <=? k) with false by lia. exact IHv. }
    destruct IHv as (sup' & Hs' & ->). rewrite run_ws by exact W4. rewrite bump_last.
    replace ((T1 ++ [inc KT]) ++ tokens v c) with (l0 ++ token JSMN_OBJECT a (-1) (m + 1) :: (ks ++ inc KT :: tokens v c)).
    2: { unfold T1. rewrite <- !app_assoc. cbn [Datatypes.app]. rewrite <- ?app_assoc. reflexivity. }
    specialize (IHl Vl false rest k (c + len (text v) + len w4) sup' l0 a (m + 1) (ks ++ inc KT :: tokens v c) (n + 1 + len (tokens v c)) ltac:(lia) Ha S).
    assert (CK : closed (inc KT)) by (unfold inc, KT; cbn [token t_type t_start t_end t_size]; apply (closed_token JSMN_STRING (b + 1) (b + 1 + len key) (0 + 1)); lia).
    specialize (IHl ltac:(apply Forall_app; split; [exact F|]; constructor; [exact CK|now apply (proj1 tokens_closed)])).
    assert (LL : len (l0 ++ token JSMN_OBJECT a (-1) (m + 1) :: ks ++ inc KT :: tokens v c) = len L + 1 + len (tokens v c)) by (unfold L; rewrite !len_app, !len_cons, !len_app, !len_cons; lia).
    assert (HS : sup' = len l0 \/ (0 <= sup' < len (l0 ++ token JSMN_OBJECT a (-1) (m + 1) :: ks ++ inc KT :: tokens v c)
        /\ is_container (nth (Z.to_nat sup') (l0 ++ token JSMN_OBJECT a (-1) (m + 1) :: ks ++ inc KT :: tokens v c) tok0) = false)).
    { destruct Hs' as [->| ->].
      - right. split; [pose proof (len_nonneg _ T1); lia|].
        replace (l0 ++ token JSMN_OBJECT a (-1) (m + 1) :: ks ++ inc KT :: tokens v c) with (T1 ++ inc KT :: tokens v c) by (unfold T1; rewrite <- app_assoc; reflexivity).
        replace (Z.to_nat (len T1)) with (length T1) by (unfold len; lia). rewrite nth_middle. reflexivity.
      - left. unfold last_open, T1. rewrite <- app_assoc. cbn [Datatypes.app]. apply last_index_hit; [unfold is_open; cbn; lia|].
        apply Forall_app. split; [exact F|]. constructor; [apply closed_token; lia|constructor]. }
    cbv zeta in IHl. rewrite LL in *. specialize (IHl HS ltac:(lia)). fold N in IHl.
    replace (len L + (len (tokens v c) + N + 1)) with (len L + 1 + len (tokens v c) + N) by lia.
    destruct (len L + 1 + len (tokens v c) + N <=? k); [|exact IHl]. destruct IHl as [s2 ->]. exists s2.
    replace (m + 1 + count_members ms) with (m + (count_members ms + 1)) by lia. rewrite <- app_assoc. cbn [Datatypes.app].
    replace (pos + len ((if first then [] else [44]) ++ w1 ++ 34 :: key ++ 34 :: w2 ++ 58 :: w3 ++ text v ++ w4 ++ members_text false ms)) with (c + len (text v) + len w4 + len (members_text false ms)).
    2: { unfold c, b. rewrite !len_app, !len_cons, !len_app, !len_cons, !len_app, !len_cons, !len_app. destruct first; change (len (@nil Z)) with 0; change (len [44]) with 1; lia. }
    replace (n + 1 + len (tokens v c) + N) with (n + (len (tokens v c) + N + 1)) by lia. reflexivity.
Qed.
