(** C81: replies on the wire; C82: how long a client may keep a thread waiting.
    Read with Spec/Wire.v ([taken]: what SSL_write may return; [silent], [data],
    [broken], [interrupted]: rounds of a quarter of a second; [delivered]) and
    the results in Model/Wire.v: [Wrote n wire], the call returned [n] and the
    connection took [wire]; [Over readable must_close rounds], the wait ended. *)
From Coq Require Import String ZArith List Bool Lia ZifyBool ZifyNat.
From Verif Require Import Base Model.CLib Model.EstErr Model.Wire Spec.Wire Proofs.Wire.
Import ListNotations.
Open Scope Z_scope.

(** ** C81 *)
(** However the connection takes a reply, in however small pieces, what it has
    taken at any time is a beginning of the reply, each octet once and in
    order; the call returns how much that is; it returns early only after a
    failed write. *)
Theorem C81_partial : forall rs (buf : bytes), taken rs (len buf) -> len buf <= 2147483647 ->
  match mg_write rs buf with
  | Writing wire => wire = firstn (Z.to_nat (fold_right Z.add 0 rs)) buf /\ len wire < len buf /\ Forall (fun r => 0 <= r) rs
  | Wrote n wire => wire = firstn (Z.to_nat n) buf /\ n = len wire /\ (len wire < len buf -> Exists (fun r => r < 0) rs)
  end.
Proof.
  intros rs buf T L. unfold mg_write, push. pose proof (push_runs rs buf 0 ltac:(unfold len; lia) ltac:(now rewrite Z.sub_0_r)) as H. cbn [Z.to_nat firstn] in H.
  destruct (push_from rs buf 0 []) as [w|n w].
  - destruct H as (n & -> & Ln & F & E). rewrite Z.add_0_l in E. subst n. split; [reflexivity|]. split; [unfold len in *; rewrite firstn_length; lia|exact F].
  - destruct H as (-> & Ln & F). rewrite to_int_small by (unfold INT_MAX; lia). assert (E : len (firstn (Z.to_nat n) buf) = n) by (unfold len in *; rewrite firstn_length; lia).
    split; [reflexivity|]. rewrite E. split; [reflexivity|exact F].
Qed.
Print Assumptions C81_partial.
Definition reply : bytes := str "HTTP/1.1 200 OK".
Example C81_case : taken [4; 1; 10] (len reply) /\ mg_write [4; 1; 10] reply = Wrote 15 reply
  /\ taken [4; -1] (len reply) /\ mg_write [4; -1] reply = Wrote 4 (str "HTTP") /\ mg_write [4; 1] reply = Writing (str "HTTP/").
Proof.
  split; [cbn; lia|]. split; [reflexivity|]. split; [cbn; lia|]. split; reflexivity.
Qed.

(** If no write fails and each takes something, the whole reply is out after as
    many writes as it has octets. *)
Theorem C81_whole : forall rs (buf : bytes), taken rs (len buf) -> len buf <= 2147483647 -> Forall (fun r => 0 < r) rs -> len buf <= Z.of_nat (length rs) ->
  mg_write rs buf = Wrote (len buf) buf.
Proof.
  intros rs buf T L F N. pose proof (C81_partial rs buf T L) as H. unfold mg_write, push in *.
  destruct (push_ends rs buf 0 []) as (n & w & E); [lia|now rewrite Z.sub_0_r|eapply Forall_impl; [|exact F]; cbn; lia|lia|]. rewrite E in *.
  destruct H as (-> & En & X). assert (Lw : len (firstn (Z.to_nat (to_int n)) buf) = len buf).
  { destruct (Z_lt_ge_dec (len (firstn (Z.to_nat (to_int n)) buf)) (len buf)) as [C|C]; [|unfold len in *; rewrite firstn_length in *; lia].
    exfalso. apply X in C. apply Exists_exists in C as (r & I & C). rewrite Forall_forall in F. specialize (F r I). lia. }
  rewrite En, Lw. f_equal. apply firstn_all2. unfold len in *. rewrite firstn_length in Lw. lia.
Qed.
Print Assumptions C81_whole.
Example C81_whole_case : taken [4; 1; 10] (len reply) /\ Forall (fun r => 0 < r) [4; 1; 10] /\ mg_write (repeat 1 15) reply = Wrote (len reply) reply.
Proof. split; [cbn; lia|]. split; [repeat constructor; lia|reflexivity]. Qed.

(** The answer as a whole is out if both parts are; if it is cut, some write
    failed. *)
Theorem C81_answer : forall rs1 rs2 hdr body e wire, taken rs1 (len hdr) -> taken rs2 (len body) -> len hdr <= 2147483647 -> len body <= 2147483647 ->
  send_answer rs1 rs2 hdr body = (Some e, wire) ->
  (Forall (fun r => 0 <= r) (rs1 ++ rs2) -> 0 < len hdr -> wire = hdr ++ body /\ (0 < len body -> e = EST_ERR_NONE))
  /\ (e <> EST_ERR_NONE -> wire = [] \/ exists k, wire = firstn k hdr).
Proof.
  intros rs1 rs2 hdr body e wire T1 T2 L1 L2 H. pose proof (C81_partial rs1 hdr T1 L1) as H1. pose proof (C81_partial rs2 body T2 L2) as H2. unfold send_answer in H.
  destruct (mg_write rs1 hdr) as [w1|n1 w1]; [discriminate|]. destruct H1 as (E1 & N1 & X1).
  assert (Full : forall rs n (b w : bytes), Forall (fun r => 0 <= r) rs -> w = firstn (Z.to_nat n) b -> (len w < len b -> Exists (fun r => r < 0) rs) -> w = b).
  { intros rs n b w F E X. destruct (Z_lt_ge_dec (len w) (len b)) as [C|C].
    - apply X in C. apply Exists_exists in C as (r & I & C). rewrite Forall_forall in F. specialize (F r I). lia.
    - subst w. apply firstn_all2. unfold len in C. rewrite firstn_length in C. lia. }
  destruct (n1 =? 0) eqn:Z1.
  - injection H as <- <-. split; [|intros _; right; exists (Z.to_nat n1); assumption]. intros F L. apply Forall_app in F as [F1 F2]. rewrite (Full rs1 n1 hdr w1 F1 E1 X1) in *. lia.
  - destruct (mg_write rs2 body) as [w2|n2 w2]; [discriminate|]. destruct H2 as (E2 & N2 & X2). injection H as <- <-. split.
    + intros F L. apply Forall_app in F as [F1 F2]. rewrite (Full rs1 n1 hdr w1 F1 E1 X1), (Full rs2 n2 body w2 F2 E2 X2) in *. split; [reflexivity|]. intro. replace (n2 =? 0) with false by lia. reflexivity.
    + destruct (n2 =? 0) eqn:Z2; [intros _|congruence]. right. exists (Z.to_nat n1). rewrite E2. replace (Z.to_nat n2) with 0%nat by lia. cbn [firstn]. rewrite app_nil_r. exact E1.
Qed.
Print Assumptions C81_answer.
Example C81_answer_case : send_answer [15] [3; 2] reply (str "body!") = (Some EST_ERR_NONE, reply ++ str "body!") /\ send_answer [-1] [] reply (str "body!") = (Some EST_ERR_HTTP_WRITE, []).
Proof. split; reflexivity. Qed.

(** But a reply cut off in the middle passes for a success: the server looks
    only for a call that sent nothing. *)
Theorem C81_refuted : forall hdr body k, 0 < len hdr <= 2147483647 -> 0 < k < len body -> len body <= 2147483647 ->
  taken [len hdr] (len hdr) /\ taken [k; -1] (len body) /\
  send_answer [len hdr] [k; -1] hdr body = (Some EST_ERR_NONE, hdr ++ firstn (Z.to_nat k) body).
Proof.
  intros hdr body k H K L. split; [cbn; lia|]. split; [cbn; lia|].
  assert (A : mg_write [len hdr] hdr = Wrote (len hdr) hdr).
  { pose proof (C81_partial [len hdr] hdr ltac:(cbn; lia) ltac:(lia)) as P. destruct (mg_write [len hdr] hdr) as [w|n w].
    - destruct P as (-> & X & _). cbn [fold_right] in X. unfold len in X. rewrite firstn_length in X. lia.
    - destruct P as (-> & N & X). destruct (Z_lt_ge_dec (len (firstn (Z.to_nat n) hdr)) (len hdr)) as [C|C]; [apply X in C; inversion C; subst; [lia|]; inversion H1|].
      assert (E : firstn (Z.to_nat n) hdr = hdr) by (apply firstn_all2; unfold len in C; rewrite firstn_length in C; lia). rewrite E in *. now rewrite N. }
  assert (B : mg_write [k; -1] body = Wrote k (firstn (Z.to_nat k) body)).
  { pose proof (C81_partial [k; -1] body ltac:(cbn; lia) ltac:(lia)) as P. assert (Q : exists w, mg_write [k; -1] body = Wrote k w).
    { unfold mg_write, push. cbn [push_from]. replace (0 <? len body) with true by lia. replace (k <? 0) with false by lia. replace (0 + k <? len body) with true by lia. cbn [Z.ltb Z.compare].
      rewrite to_int_small by (unfold INT_MAX; lia). rewrite Z.add_0_l. eauto. }
    destruct Q as (w & Q). rewrite Q in *. destruct P as (-> & _). reflexivity. }
  unfold send_answer. rewrite A, B. replace (len hdr =? 0) with false by lia. replace (k =? 0) with false by lia. reflexivity.
Qed.
Print Assumptions C81_refuted.
Example C81_refuted_case : send_answer [15] [3; -1] reply (str "certificate") = (Some EST_ERR_NONE, reply ++ str "cer").
Proof. reflexivity. Qed.

(** And if the connection was closed, so that SSL_write returns 0 each time, the
    server writes for ever. *)
Theorem C81_closed_refuted : forall n (buf : bytes), 0 < len buf -> taken (repeat 0 n) (len buf) /\ mg_write (repeat 0 n) buf = Writing [].
Proof.
  intros n buf L. assert (T : taken (repeat 0 n) (len buf)) by (induction n as [|n IH]; cbn; [exact I|]; split; [lia|]; rewrite Z.sub_0_r; auto). split; [exact T|].
  unfold mg_write, push. assert (E : forall m, push_from (repeat 0 m) buf 0 [] = Writing []); [|now rewrite E].
  induction m as [|m IH]; cbn [repeat push_from]; replace (0 <? len buf) with true by lia; [reflexivity|]. cbn. exact IH.
Qed.
Print Assumptions C81_closed_refuted.
Example C81_closed_refuted_case : mg_write (repeat 0 100) reply = Writing [].
Proof. reflexivity. Qed.

(** ** C82 *)
(** With a read timeout of [t] seconds a wait takes at most 4 [t] + 1 rounds of a
    quarter of a second.  It goes on as long as all rounds were silent; it says
    that data can be read exactly if they can and the server is not stopping;
    it gives up only if the connection broke, the server stops, or all of the
    4 [t] + 1 rounds were silent, and then the connection is to be closed. *)
Theorem C82_partial : forall t ps, 1 <= t <= 3600 -> Forall possible ps -> Forall (fun p => ~ interrupted p) ps ->
  match wait_until_socket_is_readable t ps with
  | Waiting => Forall silent ps /\ Z.of_nat (length ps) <= 4 * t
  | Over readable must_close k =>
      exists before p after, ps = before ++ p :: after /\ k = S (length before) /\ Z.of_nat k <= 4 * t + 1 /\ Forall silent before /\
        (readable = true <-> data p /\ p_stop p = false) /\
        (readable = false -> broken p \/ (silent p /\ Z.of_nat k = 4 * t + 1 /\ must_close = true)) /\
        (must_close = true -> readable = false /\ Z.of_nat k = 4 * t + 1 /\ p_result p = 0 /\ p_pending p = 0)
  end.
Proof. exact wait_cases. Qed.
Print Assumptions C82_partial.
Definition quiet : round := {| p_result := 0; p_eintr := false; p_pending := 0; p_stop := false |}.
Definition ready_round : round := {| p_result := 1; p_eintr := false; p_pending := 0; p_stop := false |}.
Example C82_case : silent quiet /\ data ready_round /\ ~ interrupted ready_round
  /\ wait_until_socket_is_readable 10 (repeat quiet 40) = Waiting /\ wait_until_socket_is_readable 10 (repeat quiet 100) = Over false true 41
  /\ wait_until_socket_is_readable 10 (repeat quiet 40 ++ [ready_round]) = Over true false 41.
Proof. split; [repeat split|]. split; [left; reflexivity|]. split; [intros (_ & X & _); discriminate|]. split; [reflexivity|]. split; reflexivity. Qed.

(** Reading [n] octets then takes at most [n] such waits, and what is read is what
    was sent, in order, [n] octets of it. *)
Theorem C82_body : forall t n ps, 1 <= t <= 3600 -> 0 <= n -> Forall answering ps -> Forall (fun p => snd p <> WantRead) ps ->
  match read_body t n ps with
  | Reading g k => Z.of_nat k < n * (4 * t + 1) /\ len g < n /\ prefixb g (delivered ps) = true
  | Got g k => Z.of_nat k <= n * (4 * t + 1) /\ g = firstn (Z.to_nat n) (delivered ps) /\ len g = n
  | GaveUp _ k => Z.of_nat k <= n * (4 * t + 1)
  end.
Proof.
  intros t n ps Ht N F W. unfold read_body. pose proof (read_bound t ps n [] 0 Ht F W) as B. pose proof (read_contents t ps n [] 0) as C.
  rewrite Z.max_l in B by lia. destruct (read_from t n ps [] 0) as [g k|g k|mc k].
  - destruct C as (d & -> & L & P). split; [lia|]. split; assumption.
  - destruct C as (-> & L). split; [lia|]. split; [reflexivity|]. cbn [Datatypes.app]. unfold len in *. rewrite firstn_length. lia.
  - lia.
Qed.
Print Assumptions C82_body.
Example C82_body_case : Forall answering [([quiet; ready_round], ReadData (str "ab")); ([ready_round], ReadData (str "cdef"))]
  /\ read_body 10 5 [([quiet; ready_round], ReadData (str "ab")); ([ready_round], ReadData (str "cdef"))] = Got (str "abcde") 3
  /\ read_body 10 5 [([quiet; ready_round], ReadData (str "ab")); (repeat quiet 50, ReadFailed)] = GaveUp true 43.
Proof.
  split; [|split; reflexivity]. repeat constructor; unfold possible; cbn; try lia; try (intros (_ & X & _); discriminate); intros d X; injection X as <-; discriminate.
Qed.

(** But signals can keep a thread waiting for ever, whatever the timeout: the
    time is looked at only in a round that was not interrupted. *)
Theorem C82_signals_refuted : forall t n, let p := {| p_result := -1; p_eintr := true; p_pending := 0; p_stop := false |} in
  interrupted p /\ wait_until_socket_is_readable t (repeat p n) = Waiting.
Proof. intros t n. split; [repeat split|]. apply wait_interrupted. Qed.
Print Assumptions C82_signals_refuted.
Example C82_signals_refuted_case : wait_until_socket_is_readable 1 (repeat {| p_result := -1; p_eintr := true; p_pending := 0; p_stop := false |} 1000) = Waiting.
Proof. reflexivity. Qed.

(** And so can a client that sends TLS records without data, or pieces of a
    record, less than the timeout apart: each makes the wait start again, and
    nothing of the request ever arrives. *)
Theorem C82_refuted : forall t n w k c, 1 <= t <= 3600 -> 0 < n -> (exists a, w = a ++ [ready_round] /\ Forall silent a /\ Z.of_nat (length a) = 4 * t /\ c = length w) ->
  read_body t n (repeat (w, WantRead) k) = Reading [] (k * c).
Proof.
  intros t n w k c Ht N (a & -> & F & L & ->). unfold read_body.
  destruct (wait_first t a ready_round []) as (r & mc & E & D & _ & M & _); try assumption; try (unfold possible; cbn; lia); try (intros (X & _); discriminate); try lia.
  assert (r = true) by (apply D; split; [left; reflexivity|reflexivity]). subst r. rewrite M in E by reflexivity.
  rewrite (read_want t k n [] 0 (a ++ [ready_round]) (length (a ++ [ready_round]))); [reflexivity|exact N|]. rewrite E, app_length, Nat.add_1_r. reflexivity.
Qed.
Print Assumptions C82_refuted.
Example C82_refuted_case : read_body 1 100 (repeat (repeat quiet 4 ++ [ready_round], WantRead) 50) = Reading [] 250.
Proof. reflexivity. Qed.
