(** Writing to and waiting for a connection. *)
From Coq Require Import String ZArith List Bool Lia ZifyBool ZifyNat.
From Verif Require Import Base Model.CLib Model.EstErr Model.Wire Spec.Wire.
Import ListNotations.
Open Scope Z_scope.

(** ** Writing *)
Lemma firstn_add' : forall (a b : nat) (l : bytes), firstn (a + b) l = firstn a l ++ firstn b (skipn a l).
Proof. induction a as [|a IH]; intros b l; [reflexivity|]. destruct l as [|x l]; cbn; [now rewrite firstn_nil|]. now rewrite IH. Qed.
Lemma push_step : forall (buf : bytes) sent n, 0 <= sent -> 0 <= n <= len buf - sent ->
  firstn (Z.to_nat sent) buf ++ firstn (Z.to_nat n) (firstn (Z.to_nat (if INT_MAX <? len buf - sent then INT_MAX else len buf - sent)) (skipn (Z.to_nat sent) buf))
  = firstn (Z.to_nat (sent + (if INT_MAX <? len buf - sent then Z.min n INT_MAX else n))) buf.
Proof.
  intros buf sent n H N. rewrite firstn_firstn. destruct (INT_MAX <? len buf - sent) eqn:E.
  - rewrite <- firstn_add'. f_equal. unfold INT_MAX in *. lia.
  - rewrite <- firstn_add'. f_equal. lia.
Qed.
(** The results obey: none is more than what is left, or than an int. *)
Lemma push_runs : forall rs (buf : bytes) sent, 0 <= sent <= len buf -> taken rs (len buf - sent) ->
  match push_from rs buf sent (firstn (Z.to_nat sent) buf) with
  | Writing w => exists n, w = firstn (Z.to_nat n) buf /\ sent <= n < len buf /\ Forall (fun r => 0 <= r) rs /\ n = sent + fold_right Z.add 0 rs
  | Wrote n w => w = firstn (Z.to_nat n) buf /\ sent <= n <= len buf /\ (n < len buf -> Exists (fun r => r < 0) rs)
  end.
Proof.
  induction rs as [|r rs IH]; intros buf sent S T; cbn [push_from].
  - destruct (sent <? len buf) eqn:L; [exists sent; cbn; split; [reflexivity|]; split; [lia|]; split; [constructor|lia]|]. repeat split; lia.
  - destruct (sent <? len buf) eqn:L; [|repeat split; lia]. cbn [taken] in T. destruct T as [T1 T2].
    destruct (r <? 0) eqn:R; [split; [reflexivity|]; split; [lia|]; intros _; constructor; lia|].
    assert (Rr : 0 <= r <= len buf - sent) by (specialize (T1 ltac:(lia)); lia).
    rewrite push_step by lia. replace (if INT_MAX <? len buf - sent then Z.min r INT_MAX else r) with r by (specialize (T1 ltac:(lia)); unfold INT_MAX in *; destruct (2147483647 <? len buf - sent) eqn:E; lia).
    specialize (IH buf (sent + r) ltac:(lia) ltac:(replace (len buf - (sent + r)) with (len buf - sent - r) by lia; apply T2; lia)).
    destruct (push_from rs buf (sent + r) _) as [w|n w].
    + destruct IH as (n & -> & Ln & F & E). exists n. split; [reflexivity|]. split; [lia|]. split; [constructor; [lia|exact F]|]. cbn. lia.
    + destruct IH as (-> & Ln & F). split; [reflexivity|]. split; [lia|]. intro X. right. auto.
Qed.

Lemma push_ends : forall rs (buf : bytes) sent w, 0 <= sent -> taken rs (len buf - sent) -> Forall (fun r => r <> 0) rs -> len buf - sent < Z.of_nat (length rs) + 1 ->
  exists n w', push_from rs buf sent w = Wrote n w'.
Proof.
  induction rs as [|r rs IH]; intros buf sent w S T F L; cbn [push_from].
  - cbn in L. replace (sent <? len buf) with false by lia. eauto.
  - destruct (sent <? len buf) eqn:E; [|eauto]. destruct (r <? 0) eqn:R; [eauto|]. inversion F; subst. destruct T as [T1 T2]. cbn [length] in L.
    apply IH; [lia| |assumption|lia]. replace (len buf - (sent + r)) with (len buf - sent - r) by lia. apply T2. lia.
Qed.
Lemma push_zeros : forall k (buf : bytes) sent w, sent < len buf -> exists w', push_from (repeat 0 k) buf sent w = Writing w'.
Proof.
  induction k as [|k IH]; intros buf sent w L; cbn [push_from repeat]; replace (sent <? len buf) with true by lia; [eauto|]. cbn [Z.ltb Z.compare]. apply IH. lia.
Qed.
Lemma to_int_small : forall n, 0 <= n <= INT_MAX -> to_int n = n.
Proof. intros n H. unfold to_int, INT_MAX in *. rewrite Z.mod_small by lia. lia. Qed.

(** ** Waiting *)
Lemma wait_silent : forall t ps rest n, 1 <= t <= 3600 -> Forall silent ps -> Z.of_nat (n + length ps) <= 4 * t ->
  wait_from (t * 1000) (250 * Z.of_nat n) n (ps ++ rest) = wait_from (t * 1000) (250 * Z.of_nat (n + length ps)) (n + length ps) rest.
Proof.
  intros t ps. induction ps as [|p ps IH]; intros rest n Ht F L; [cbn [Datatypes.app length]; now rewrite Nat.add_0_r|].
  inversion F as [|? ? (R & P & Q) F']; subst. cbn [Datatypes.app wait_from length] in *. unfold MSEC_POLL_WAIT_TIME. rewrite R, P, Q. cbn [Z.eqb].
  rewrite Z.mod_small by lia. replace (t * 1000 <? 250 * Z.of_nat n + 250) with false by lia. cbn [andb orb negb Z.eqb Z.ltb Z.compare].
  replace (250 * Z.of_nat n + 250) with (250 * Z.of_nat (S n)) by lia. rewrite IH by (assumption || lia). replace (S n + length ps)%nat with (n + S (length ps))%nat by lia. reflexivity.
Qed.
Lemma timeout_small : forall t, 1 <= t <= 3600 -> (t * 1000) mod 2 ^ 32 = t * 1000.
Proof. intros. apply Z.mod_small. lia. Qed.
Lemma wait_start : forall t ps rest, 1 <= t <= 3600 -> Forall silent ps -> Z.of_nat (length ps) <= 4 * t ->
  wait_until_socket_is_readable t (ps ++ rest) = wait_from (t * 1000) (250 * Z.of_nat (length ps)) (length ps) rest.
Proof. intros t ps rest Ht F L. unfold wait_until_socket_is_readable. rewrite timeout_small by lia. apply (wait_silent t ps rest 0 Ht F L). Qed.
Lemma wait_timeout : forall t ps rest, 1 <= t <= 3600 -> Forall silent ps -> Z.of_nat (length ps) = 4 * t + 1 ->
  wait_until_socket_is_readable t (ps ++ rest) = Over false true (length ps).
Proof.
  intros t ps rest Ht F L. 
  destruct (exists_last (l := ps)) as (ps0 & p & E); [intros ->; cbn [length] in L; lia|]. subst ps. rewrite app_length in *. cbn [length] in *. apply Forall_app in F as [F0 F1]. inversion F1 as [|? ? (R & P & Q) _]; subst.
  rewrite <- app_assoc. rewrite wait_start by (assumption || lia). cbn [Datatypes.app wait_from]. unfold MSEC_POLL_WAIT_TIME. rewrite R, P, Q. cbn [Z.eqb].
  rewrite Z.mod_small by lia. replace (t * 1000 <? 250 * Z.of_nat (length ps0) + 250) with true by lia. cbn [andb orb negb Z.eqb Z.ltb Z.compare]. rewrite !andb_false_r, Nat.add_1_r; reflexivity.
Qed.
Lemma wait_end : forall t a p b, 1 <= t <= 3600 -> Forall silent a -> silent p -> Z.of_nat (length a) = 4 * t -> wait_until_socket_is_readable t (a ++ p :: b) = Over false true (S (length a)).
Proof.
  intros t a p b Ht F Sp L. replace (a ++ p :: b) with ((a ++ [p]) ++ b) by (now rewrite <- app_assoc). rewrite wait_timeout.
  - rewrite app_length, Nat.add_1_r. reflexivity.
  - exact Ht.
  - apply Forall_app. auto.
  - rewrite app_length. cbn [length]. lia.
Qed.
Lemma wait_pending : forall t ps, 1 <= t <= 3600 -> Forall silent ps -> Z.of_nat (length ps) <= 4 * t -> wait_until_socket_is_readable t ps = Waiting.
Proof.
  intros t ps Ht F L.  rewrite <- (app_nil_r ps), wait_start by (assumption || lia). reflexivity.
Qed.
Lemma wait_first : forall t ps p rest, 1 <= t <= 3600 -> Forall silent ps -> Z.of_nat (length ps) <= 4 * t -> possible p -> ~ silent p -> ~ interrupted p ->
  exists r mc, wait_until_socket_is_readable t (ps ++ p :: rest) = Over r mc (S (length ps)) /\ (r = true <-> data p /\ p_stop p = false) /\ (r = false -> broken p) /\ (r = true -> mc = false)
  /\ (mc = true -> Z.of_nat (length ps) = 4 * t /\ p_result p = 0 /\ p_pending p = 0).
Proof.
  intros t ps p rest Ht F L Po NS NI.  rewrite wait_start by (assumption || lia).
  cbn [wait_from]. unfold MSEC_POLL_WAIT_TIME. rewrite Z.mod_small by lia. unfold possible, silent, data, broken, interrupted in *.
  destruct p as [r e pe st]. cbn [p_result p_eintr p_pending p_stop] in *.
  destruct st.
  - rewrite !andb_false_r, ?andb_false_l. cbn [orb negb]. eexists _, _. split; [reflexivity|]. split; [split; [discriminate|intros [_ X]; discriminate]|]. split; [auto|]. split; [discriminate|].
    intro X. apply andb_true_iff in X as [X1 X2]. destruct (r =? 0) eqn:E; lia.
  - assert (Z0 : (if r =? 0 then pe else r) <> 0) by (destruct (r =? 0) eqn:E; [intro; apply NS; repeat split; lia|lia]).
    assert (G : data {| p_result := r; p_eintr := e; p_pending := pe; p_stop := false |} <-> 0 < (if r =? 0 then pe else r)) by (unfold data; cbn; destruct (r =? 0) eqn:E; lia).
    assert (N : (if r =? 0 then pe else r) < 0 -> r < 0 /\ e = false) by (destruct (r =? 0) eqn:E; [lia|]; intro; split; [assumption|]; destruct e; [exfalso; apply NI; auto|reflexivity]).
    unfold data in G. cbn [p_result p_pending] in G. revert Z0 G N. generalize (if r =? 0 then pe else r). intros v Z0 G N.
    replace (v =? 0) with false by lia. rewrite andb_false_r. replace (v =? 0) with false by lia. destruct (v <? 0) eqn:V.
    + destruct N as [N1 N2]; [lia|]. subst e. cbn [andb orb negb]. eexists _, _. split; [reflexivity|]. split; [split; [discriminate|intros [X _]; lia]|]. split; [auto|]. split; discriminate.
    + cbn [andb orb negb]. eexists _, _. split; [reflexivity|]. split; [split; [intros _; split; [apply G; lia|reflexivity]|reflexivity]|]. split; [discriminate|]. split; [reflexivity|discriminate].
Qed.
Lemma silent_dec : forall p, {silent p} + {~ silent p}.
Proof.
  intros [r e pe st]. unfold silent. cbn. destruct (Z.eq_dec r 0); [|right; tauto]. destruct (Z.eq_dec pe 0); [|right; tauto]. destruct st; [right; intros (_ & _ & X); discriminate|left; auto].
Qed.
(** A script has a quiet start of at most [k] rounds, and then a full one or something. *)
Lemma quiet_start : forall k ps, (Forall silent ps /\ (length ps <= k)%nat) \/ (exists a p b, ps = a ++ p :: b /\ Forall silent a /\ (length a <= k)%nat /\ (silent p -> length a = k)).
Proof.
  induction k as [|k IH]; intros ps.
  - destruct ps as [|p ps]; [left; split; [constructor|cbn; lia]|]. right. exists [], p, ps. repeat split; constructor.
  - destruct ps as [|p ps]; [left; split; [constructor|cbn; lia]|]. destruct (silent_dec p) as [Sp|Sp].
    + destruct (IH ps) as [[F L]|(a & q & b & -> & F & L & Q)]; [left; split; [constructor; assumption|cbn; lia]|].
      right. exists (p :: a), q, b. cbn [length]. split; [reflexivity|]. split; [constructor; assumption|]. split; [lia|]. intro X. now rewrite (Q X).
    + right. exists [], p, ps. split; [reflexivity|]. split; [constructor|]. split; [cbn; lia|]. intro; contradiction.
Qed.
Lemma wait_cases : forall t ps, 1 <= t <= 3600 -> Forall possible ps -> Forall (fun p => ~ interrupted p) ps ->
  match wait_until_socket_is_readable t ps with
  | Waiting => Forall silent ps /\ Z.of_nat (length ps) <= 4 * t
  | Over readable must_close k =>
      exists before p after, ps = before ++ p :: after /\ k = S (length before) /\ Z.of_nat k <= 4 * t + 1 /\ Forall silent before /\
        (readable = true <-> data p /\ p_stop p = false) /\
        (readable = false -> broken p \/ (silent p /\ Z.of_nat k = 4 * t + 1 /\ must_close = true)) /\
        (must_close = true -> readable = false /\ Z.of_nat k = 4 * t + 1 /\ p_result p = 0 /\ p_pending p = 0)
  end.
Proof.
  intros t ps Ht FP FI. destruct (quiet_start (Z.to_nat (4 * t)) ps) as [[F L]|(a & p & b & -> & F & L & Q)].
  - rewrite wait_pending by (assumption || lia). split; [assumption|lia].
  - apply Forall_app in FP as [_ FP]. inversion FP; subst. apply Forall_app in FI as [_ FI]. inversion FI; subst.
    destruct (silent_dec p) as [Sp|Sp].
    + specialize (Q Sp). rewrite (wait_end t a p b); [|lia|assumption|assumption|lia]. cbv beta iota. exists a, p, b. split; [reflexivity|]. split; [reflexivity|]. split; [lia|]. split; [assumption|]. destruct Sp as (A & B & C).
      split; [split; [discriminate|intros [[X|X] _]; lia]|]. split; [intros _; right; repeat split; try assumption; lia|]. intros _. repeat split; try assumption; lia.
    + destruct (wait_first t a p b) as (r & mc & -> & D & B & M & T); try assumption; [lia|]. exists a, p, b. split; [reflexivity|]. split; [reflexivity|]. split; [lia|]. split; [assumption|]. split; [assumption|].
      split; [intro X; left; auto|]. intro X. destruct (T X) as (T1 & T2 & T3). split; [destruct r; [rewrite M in X by reflexivity; discriminate|reflexivity]|]. repeat split; try assumption; lia.
Qed.
Lemma wait_interrupted : forall t k total n, wait_from t total n (repeat {| p_result := -1; p_eintr := true; p_pending := 0; p_stop := false |} k) = Waiting.
Proof.
  intros t k. induction k as [|k IH]; intros total n; [reflexivity|]. cbn [repeat wait_from p_result p_eintr p_pending p_stop]. rewrite andb_false_r. cbn [Z.eqb Z.ltb Z.compare orb andb negb]. apply IH.
Qed.

(** ** Reading *)
Lemma read_bound : forall t ps n got r, 1 <= t <= 3600 -> Forall answering ps -> Forall (fun p => snd p <> WantRead) ps -> 
  match read_from t n ps got r with
  | Reading _ k => Z.of_nat k < Z.of_nat r + Z.max n 0 * (4 * t + 1)
  | Got _ k | GaveUp _ k => Z.of_nat k <= Z.of_nat r + Z.max n 0 * (4 * t + 1)
  end.
Proof.
  intros t ps. induction ps as [|[w x] ps IH]; intros n got r Ht F W; cbn [read_from]; destruct (n <=? 0) eqn:N; try nia.
  inversion F as [|? ? (Fp & Fi & Fd) F']; subst. inversion W as [|? ? Wx W']; subst. cbn [fst snd] in *.
  pose proof (wait_cases t w Ht Fp Fi) as H. destruct (wait_until_socket_is_readable t w) as [|readable mc k].
  - destruct H as [_ H]. nia.
  - destruct H as (a & p & b & -> & _ & K & _). destruct readable; [|nia]. destruct x as [d| |]; [|contradiction|nia].
    specialize (Fd d eq_refl). assert (Dn : 1 <= len (firstn (Z.to_nat n) d)) by (destruct d as [|c d]; [cbn in Fd; congruence|]; destruct (Z.to_nat n) eqn:E; [lia|]; cbn [firstn]; unfold len; cbn [length]; lia).
    assert (Dm : len (firstn (Z.to_nat n) d) <= n) by (unfold len; rewrite firstn_length; lia).
    specialize (IH (n - len (firstn (Z.to_nat n) d)) (got ++ firstn (Z.to_nat n) d) (r + k)%nat Ht F' W').
    destruct (read_from t _ ps _ _); nia.
Qed.
Lemma read_contents : forall t ps n got r,
  match read_from t n ps got r with
  | Reading g _ => exists d, g = got ++ d /\ len d < n /\ prefixb d (delivered ps) = true
  | Got g _ => g = got ++ firstn (Z.to_nat n) (delivered ps) /\ Z.max n 0 <= len (delivered ps)
  | GaveUp _ _ => True
  end.
Proof.
  intros t ps. induction ps as [|[w x] ps IH]; intros n got r; cbn [read_from]; destruct (n <=? 0) eqn:N.
  1, 3: replace (Z.to_nat n) with 0%nat by lia; cbn [firstn]; rewrite app_nil_r; split; [reflexivity|]; unfold len; lia.
  - exists []. rewrite app_nil_r. cbn. repeat split. lia.
  - destruct (wait_until_socket_is_readable t w) as [|[] mc k]; [exists []; rewrite app_nil_r; cbn; repeat split; lia| |exact I].
    destruct x as [d| |]; [| |exact I].
    + specialize (IH (n - len (firstn (Z.to_nat n) d)) (got ++ firstn (Z.to_nat n) d) (r + k)%nat). cbn [delivered].
      destruct (read_from t _ ps _ _) as [g kk|g kk|mc' kk]; [| |exact I].
      * destruct IH as (e & -> & L & P). exists (firstn (Z.to_nat n) d ++ e). rewrite <- app_assoc. split; [reflexivity|]. rewrite len_app. split; [lia|].
        assert (Dn : firstn (Z.to_nat n) d = d) by (apply firstn_all2; unfold len in *; rewrite firstn_length in L; lia). rewrite Dn. clear - P. induction d as [|c d IHd]; [exact P|]. cbn. rewrite Z.eqb_refl. exact IHd.
      * destruct IH as (-> & L). rewrite len_app. split; [|unfold len in *; rewrite firstn_length in L; lia].
        rewrite <- app_assoc. f_equal. rewrite firstn_app. f_equal. f_equal. unfold len. rewrite firstn_length. lia.
    + exact (IH n got (r + k)%nat).
Qed.
Lemma read_want : forall t k n got r w c, 0 < n -> wait_until_socket_is_readable t w = Over true false c ->
  read_from t n (repeat (w, WantRead) k) got r = Reading got (r + k * c).
Proof.
  intros t k. induction k as [|k IH]; intros n got r w c N H; cbn [repeat read_from]; replace (n <=? 0) with false by lia; [now rewrite Nat.add_0_r|].
  rewrite H, (IH n got (r + c)%nat w c N H). f_equal. lia.
Qed.
