(** Proofs about the client's connections. *)
From Coq Require Import ZArith List Bool Lia ZifyBool.
From Verif Require Import Base Model.EstErr Model.Connection Spec.Connection.
Import ListNotations.
Open Scope Z_scope.

Lemma err_none_dec : forall e, {e = EST_ERR_NONE} + {e <> EST_ERR_NONE}.
Proof. intros e. destruct e; ((left; reflexivity) || (right; discriminate)). Qed.

Section Proofs.
Variable pick : list Z -> Z.
Hypothesis new : gives_new pick.

Lemma remove_head : forall n l, ~ In n l -> remove Z.eq_dec n (n :: l) = l.
Proof. intros n l H. rewrite remove_cons. now apply notin_remove. Qed.

Lemma try_split : forall l fd e s, none_answers l ->
  exists s', try_addresses pick l fd e s = (match l with [] => fd | _ => Some (-1) end,
                                          match rev l with [] => e | (_, NoSocket) :: _ => TCW_ERR_SOCKET | _ => TCW_ERR_CONNECT end, s')
    /\ w_open (s_w s') = w_open (s_w s) /\ w_tls (s_w s') = w_tls (s_w s) /\ w_sess (s_w s') = w_sess (s_w s)
    /\ w_tried (s_w s') = w_tried (s_w s) ++ with_socket l /\ s_k s' = s_k s.
Proof.
  assert (R : forall x (l : list (Z * reply)) e, match rev (x :: l) with [] => e | (_, NoSocket) :: _ => TCW_ERR_SOCKET | _ => TCW_ERR_CONNECT end
     = match rev l with [] => match snd x with NoSocket => TCW_ERR_SOCKET | _ => TCW_ERR_CONNECT end | (_, NoSocket) :: _ => TCW_ERR_SOCKET | _ => TCW_ERR_CONNECT end).
  { intros [a r] l e. cbn [rev]. destruct (rev l) as [|[b q] t]; cbn; [destruct r; reflexivity|reflexivity]. }
  induction l as [|[a r] l IH]; intros fd e s H.
  { exists s. cbn. rewrite app_nil_r. auto 10. }
  assert (Hl : none_answers l) by (intros b K; apply (H b); now right).
  rewrite R. destruct r; cbn [try_addresses snd].
  - destruct (IH (Some (-1)) TCW_ERR_SOCKET s Hl) as (s' & K & K1 & K2 & K3 & K4 & K5). exists s'.
    rewrite K. split; [destruct l; reflexivity|]. auto 10.
  - set (s1 := close_fd _ _). destruct (IH (Some (-1)) TCW_ERR_CONNECT s1 Hl) as (s' & K & K1 & K2 & K3 & K4 & K5). exists s'.
    rewrite K. split; [destruct l; reflexivity|].
    assert (O : w_open (s_w s1) = w_open (s_w s)).
    { unfold s1, close_fd. cbn. destruct (Z.eq_dec _ _); [|congruence]. apply notin_remove. apply new. }
    rewrite K1, K2, K3, K4, K5, O. unfold s1. cbn. rewrite <- app_assoc. auto 10.
  - exfalso. apply (H a). now left.
Qed.
Lemma try_found : forall l fd e s a post, none_answers l ->
  exists s' n, try_addresses pick (l ++ (a, Connects) :: post) fd e s = (Some n, TCW_OK, s')
    /\ 0 <= n /\ ~ In n (w_open (s_w s))
    /\ w_open (s_w s') = n :: w_open (s_w s) /\ w_tls (s_w s') = w_tls (s_w s) /\ w_sess (s_w s') = w_sess (s_w s)
    /\ w_tried (s_w s') = w_tried (s_w s) ++ with_socket l ++ [a] /\ s_k s' = s_k s.
Proof.
  induction l as [|[b r] l IH]; intros fd e s a post H.
  { cbn. do 2 eexists. split; [reflexivity|]. cbn. destruct (new (w_open (s_w s))). auto 10. }
  assert (Hl : none_answers l) by (intros c K; apply (H c); now right).
  destruct r; cbn [app try_addresses].
  - apply (IH (Some (-1)) TCW_ERR_SOCKET s a post Hl).
  - set (s1 := close_fd _ _). destruct (IH (Some (-1)) TCW_ERR_CONNECT s1 a post Hl) as (s' & n & K & N0 & N1 & K1 & K2 & K3 & K4 & K5).
    assert (O : w_open (s_w s1) = w_open (s_w s)).
    { unfold s1, close_fd. cbn. destruct (Z.eq_dec _ _); [|congruence]. apply notin_remove. apply new. }
    exists s', n. rewrite K. split; [reflexivity|]. rewrite O in *. split; [exact N0|]. split; [exact N1|].
    rewrite K1, K2, K3, K4, K5. unfold s1. cbn. rewrite <- app_assoc. auto 10.
  - exfalso. apply (H b). now left.
Qed.

Lemma answers_dec : forall l, {none_answers l} + {exists pre a post, l = pre ++ (a, Connects) :: post /\ none_answers pre}.
Proof.
  induction l as [|[a r] l [IH|IH]].
  - left. intros a [].
  - destruct r; [left|left|right; exists [], a, l; split; [reflexivity|intros b []]];
      intros b [K|K]; try discriminate K; exact (IH b K).
  - right. destruct r.
    1,2: destruct IH as (pre & b & post & -> & H); exists ((a, NoSocket) :: pre), b, post + exists ((a, NoConnect) :: pre), b, post;
         (split; [reflexivity|intros c [K|K]; [discriminate K|exact (H c K)]]).
    exists [], a, l. split; [reflexivity|intros b []].
Qed.

(** Closing the socket just opened. *)
Lemma close_new : forall s n l, k_fd (s_k s) = n -> w_open (s_w s) = n :: l -> ~ In n l ->
  w_open (s_w (tcw_close s)) = l /\ w_tls (s_w (tcw_close s)) = w_tls (s_w s) /\ w_sess (s_w (tcw_close s)) = w_sess (s_w s)
  /\ w_tried (s_w (tcw_close s)) = w_tried (s_w s) /\ k_sess (s_k (tcw_close s)) = k_sess (s_k s) /\ k_connected (s_k (tcw_close s)) = k_connected (s_k s).
Proof.
  intros s n l H1 H2 H3. unfold tcw_close. rewrite H1. destruct (in_dec Z.eq_dec n (w_open (s_w s))) as [I|I].
  - unfold close_fd. cbn -[remove]. rewrite H2, remove_head by assumption. auto 10.
  - exfalso. apply I. rewrite H2. now left.
Qed.

(** The connected state. *)
Definition connected (s s' : st) (ssl : option Z) : Prop :=
  exists n i, w_open (s_w s') = n :: w_open (s_w s) /\ ~ In n (w_open (s_w s)) /\ k_fd (s_k s') = n /\ k_connected (s_k s') = true
    /\ w_tls (s_w s') = i :: w_tls (s_w s) /\ ~ In i (w_tls (s_w s)) /\ ssl = Some i.

Lemma disconnect_released : forall s s' ssl x, connected s s' ssl ->
  nothing_left s (fst (est_client_disconnect ssl x s')) /\ snd (est_client_disconnect ssl x s') = None
  /\ k_connected (s_k (fst (est_client_disconnect ssl x s'))) = false.
Proof.
  intros s s' ssl x (n & i & H1 & H2 & H3 & H4 & H5 & H6 & ->). unfold est_client_disconnect.
  set (s1 := match k_sess (s_k s') with None => _ | Some _ => _ end).
  assert (A : w_open (s_w s1) = w_open (s_w s') /\ w_tls (s_w s1) = w_tls (s_w s') /\ k_fd (s_k s1) = k_fd (s_k s') /\ k_connected (s_k s1) = k_connected (s_k s')).
  { unfold s1. destruct (k_sess (s_k s')) as [o|]; [destruct (x =? o)|]; cbn; auto. }
  destruct A as (A1 & A2 & A3 & A4).
  set (s2 := SSL_free (Some i) s1).
  assert (B : w_open (s_w s2) = n :: w_open (s_w s) /\ w_tls (s_w s2) = w_tls (s_w s) /\ k_fd (s_k s2) = n /\ k_connected (s_k s2) = true).
  { unfold s2, SSL_free. cbn. rewrite A1, A2, A3, A4, H5, H1, H3, H4. rewrite remove_head by assumption. auto. }
  destruct B as (B1 & B2 & B3 & B4). rewrite B4. cbn [fst snd].
  destruct (close_new s2 n _ B3 B1 H2) as (C1 & C2 & _).
  split; [|split; reflexivity]. split; [exact C1|exact (eq_trans C2 B2)].
Qed.

Inductive dialled (d : dial) (s : st) (ssl : option Z) : est_error -> option Z -> st -> Prop :=
| Up : forall s' i, connected s s' (Some i) -> dialled d s ssl EST_ERR_NONE (Some i) s'
| Handshake : forall s' i, w_open (s_w s') = w_open (s_w s) -> w_tls (s_w s') = i :: w_tls (s_w s) -> ~ In i (w_tls (s_w s)) ->
    d_tls d = false -> dialled d s ssl EST_ERR_SSL_CONNECT (Some i) s'
| Down : forall e s' x, e <> EST_ERR_NONE -> e <> EST_ERR_SSL_CONNECT -> x = ssl \/ x = None -> nothing_left s s' -> dialled d s ssl e x s'.

Lemma connect_cases : forall d ssl s, resolves d ->
  exists e x s', est_client_connect pick d ssl s = Ok (e, x, s') /\ dialled d s ssl e x s'.
Proof.
  intros d ssl s R. unfold est_client_connect, tcw_connect.
  destruct (d_addrs d) as [l|] eqn:A.
  2:{ do 3 eexists. split; [reflexivity|]. apply Down; [discriminate|discriminate|now left|split; reflexivity]. }
  assert (Q : l <> []) by (intros ->; now apply R).
  destruct (answers_dec l) as [N|(pre & a & post & -> & N)].
  - destruct (try_split l None TCW_OK (set_fd (-1) s) N) as (s' & K & K1 & K2 & _). rewrite K.
    destruct l as [|x l]; [contradiction|]. cbn [bind]. change (0 <=? -1) with false. cbn match.
    assert (E : match rev (x :: l) with [] => TCW_OK | (_, NoSocket) :: _ => TCW_ERR_SOCKET | _ => TCW_ERR_CONNECT end = TCW_ERR_SOCKET
             \/ match rev (x :: l) with [] => TCW_OK | (_, NoSocket) :: _ => TCW_ERR_SOCKET | _ => TCW_ERR_CONNECT end = TCW_ERR_CONNECT).
    { destruct (rev (x :: l)) as [|[b q] t] eqn:Z.
      - apply (f_equal (@length _)) in Z. rewrite rev_length in Z. discriminate Z.
      - destruct q; auto. }
    destruct E as [-> | ->]; (do 3 eexists; split; [reflexivity|]; apply Down; [discriminate|discriminate|now left|split; assumption]).
  - destruct (try_found pre None TCW_OK (set_fd (-1) s) a post N) as (s' & n & K & N0 & N1 & K1 & K2 & K3 & K4 & K5). rewrite K.
    cbn [bind]. replace (0 <=? n) with true by lia.
    assert (C1 : k_fd (s_k (set_fd n s')) = n) by reflexivity.
    assert (C2 : w_open (s_w (set_fd n s')) = n :: w_open (s_w s)) by exact K1.
    assert (C3 : ~ In n (w_open (s_w s))) by exact N1.
    assert (C4 : w_tls (s_w (set_fd n s')) = w_tls (s_w s)) by exact K2.
    destruct (close_new _ _ _ C1 C2 C3) as (E1 & E2 & _). rewrite C4 in E2.
    destruct (d_keepalive d); cbn [negb]; [|do 3 eexists; split; [reflexivity|]; apply Down; [discriminate|discriminate|now left|split; assumption]].
    destruct (d_bio d); cbn [negb]; [|do 3 eexists; split; [reflexivity|]; apply Down; [discriminate|discriminate|now left|split; assumption]].
    destruct (d_ssl d); cbn [negb]; [|do 3 eexists; split; [reflexivity|]; apply Down; [discriminate|discriminate|now right|split; assumption]].
    rewrite C4. set (i := pick (w_tls (s_w s))). set (s2 := set_tls _ _).
    assert (I : ~ In i (w_tls (s_w s))) by apply new.
    destruct (d_tls d) eqn:T; cbn [negb].
    + assert (U : connected s (set_connected true s2) (Some i)).
      { exists n, i. repeat split; assumption || reflexivity. }
      destruct (d_name d).
      * do 3 eexists. split; [reflexivity|]. now apply Up.
      * destruct (disconnect_released s _ _ (d_session d) U) as (V1 & V2 & _).
        destruct (est_client_disconnect (Some i) (d_session d) (set_connected true s2)) as [s3 x3]. cbn [fst snd] in *.
        do 3 eexists. split; [reflexivity|]. subst x3. apply Down; [discriminate|discriminate|now right|assumption].
    + do 3 eexists. split; [reflexivity|].
      assert (D2 : w_open (s_w s2) = n :: w_open (s_w s)) by exact C2.
      destruct (close_new s2 n _ eq_refl D2 C3) as (F1 & F2 & _).
      apply Handshake; [exact F1|exact F2|exact I|exact T].
Qed.

Lemma free_left : forall s s' i, w_open (s_w s') = w_open (s_w s) -> w_tls (s_w s') = i :: w_tls (s_w s) -> ~ In i (w_tls (s_w s)) ->
  nothing_left s (SSL_free (Some i) s').
Proof. intros s s' i H1 H2 H3. unfold nothing_left, SSL_free. cbn. rewrite H1, H2, remove_head by assumption. auto. Qed.
Lemma left_trans : forall a b c, nothing_left a b -> nothing_left b c -> nothing_left a c.
Proof. unfold nothing_left. intros a b c [H1 H2] [H3 H4]. split; congruence. Qed.

(** The end of an attempt made with a NULL pointer: everything is released. *)
Lemma connect_end : forall d s e x s', dialled d s None e x s' -> e <> EST_ERR_NONE -> nothing_left s (SSL_free x s').
Proof.
  intros d s e x s' H N. destruct H as [s' i C|s' i H1 H2 H3 _|e s' x E1 E2 E3 E4]; [contradiction|now apply free_left|].
  destruct E3 as [-> | ->]; exact E4.
Qed.

Lemma one_released : forall d s, resolves d -> exists s', one_attempt pick d s = Ok s' /\ nothing_left s s'.
Proof.
  intros d s R. unfold one_attempt. destruct (connect_cases d None s R) as (e & x & s1 & K & D). rewrite K. cbn [bind].
  destruct (err_none_dec e) as [->|E].
  - inversion D as [s1' i C| |? ? ? F]; subst; [|now contradiction F].
    destruct (disconnect_released _ _ _ (d_session d) C) as (V1 & V2 & _).
    destruct (est_client_disconnect (Some i) (d_session d) s1) as [s3 x3]. cbn [fst snd] in *. subst x3. eexists. split; [reflexivity|exact V1].
  - exists (SSL_free x s1). split; [|exact (connect_end _ _ _ _ _ D E)]. destruct e; reflexivity || now contradiction E.
Qed.

Lemma two_released : forall d1 again blocked d2 s, resolves d1 -> resolves d2 ->
  exists s', two_attempts pick d1 again blocked d2 s = Ok s' /\ nothing_left s s'.
Proof.
  intros d1 ag bl d2 s R1 R2. unfold two_attempts. destruct (connect_cases d1 None s R1) as (e & x & s1 & K & D). rewrite K. cbn [bind].
  destruct (err_none_dec e) as [->|E].
  2:{ exists (SSL_free x s1). split; [|exact (connect_end _ _ _ _ _ D E)]. destruct e; reflexivity || now contradiction E. }
  inversion D as [s1' i C| |? ? ? F]; subst; [|now contradiction F]. clear D K.
  destruct (disconnect_released _ _ _ (d_session d1) C) as (V1 & V2 & _).
  destruct (est_client_disconnect (Some i) (d_session d1) s1) as [s3 x3]. cbn [fst snd] in *. subst x3.
  destruct (ag && negb bl); [|exists s3; split; [reflexivity|exact V1]].
  destruct (connect_cases d2 None s3 R2) as (e & x & s4 & K & D). rewrite K. cbn [bind].
  destruct (err_none_dec e) as [->|E].
  2:{ exists (SSL_free x s4). split; [destruct e; reflexivity || now contradiction E|].
      exact (left_trans _ _ _ V1 (connect_end _ _ _ _ _ D E)). }
  inversion D as [s4' j C2| |? ? ? F]; subst; [|now contradiction F].
  destruct (disconnect_released _ _ _ (d_session d2) C2) as (W1 & W2 & _).
  destruct (est_client_disconnect (Some j) (d_session d2) s4) as [s5 x5]. cbn [fst snd] in *. subst x5.
  exists s5. split; [reflexivity|]. exact (left_trans _ _ _ V1 W1).
Qed.

Lemma proxy_left : forall d s, resolves d -> exists s', proxy_attempt pick d s = Ok s'
  /\ w_open (s_w s') = w_open (s_w s)
  /\ (w_tls (s_w s') = w_tls (s_w s) \/ d_tls d = false /\ exists i, w_tls (s_w s') = i :: w_tls (s_w s)).
Proof.
  intros d s R. unfold proxy_attempt. destruct (connect_cases d None s R) as (e & x & s1 & K & D). rewrite K. cbn [bind].
  destruct (err_none_dec e) as [->|E].
  - inversion D as [s1' i C| |? ? ? F]; subst; [|now contradiction F].
    destruct (disconnect_released _ _ _ (d_session d) C) as ((V1 & V1') & V2 & _).
    destruct (est_client_disconnect (Some i) (d_session d) s1) as [s3 x3]. cbn [fst snd] in *. exists s3. auto.
  - exists s1. split; [destruct e; reflexivity || now contradiction E|].
    destruct D as [s1 i C|s1 i H1 H2 H3 H4|e s1 x E1 E2 E3 [E4 E5]]; [contradiction| |auto]. split; [exact H1|]. right. eauto.
Qed.

Lemma voucher_released : forall d1 ready again blocked d2 ready2 s, resolves d1 -> resolves d2 ->
  ready = true -> (again = true -> blocked = false -> ready2 = true) ->
  exists s', voucher_attempts pick d1 ready again blocked d2 ready2 s = Ok s' /\ nothing_left s s'.
Proof.
  intros d1 r ag bl d2 r2 s R1 R2 -> H2. destruct (two_released d1 ag bl d2 s R1 R2) as (s' & K & L). exists s'. split; [|exact L].
  rewrite <- K. unfold voucher_attempts, two_attempts. cbn [negb].
  destruct (est_client_connect pick d1 None s) as [[[e x] s1]|]; cbn [bind]; [|reflexivity].
  destruct (err_none_dec e) as [->|E]; [|destruct e; reflexivity || now contradiction E].
  destruct (est_client_disconnect x (d_session d1) s1) as [s3 x3].
  destruct ag, bl; cbn [andb negb] in *; try reflexivity. rewrite H2 by reflexivity. reflexivity.
Qed.

(** ** Sessions *)
Variable x : Z.
Variable base : list Z.
Definition holds_one (s : st) : Prop :=
  k_sess (s_k s) = None /\ w_sess (s_w s) = base \/ k_sess (s_k s) = Some x /\ w_sess (s_w s) = x :: base.

Lemma close_one : forall s, holds_one s -> holds_one (tcw_close s).
Proof. intros s H. unfold tcw_close. destruct (in_dec _ _ _); exact H. Qed.
Lemma free_one : forall i s, holds_one s -> holds_one (SSL_free i s).
Proof. intros [i|] s H; exact H. Qed.
Lemma disconnect_one : forall i s, holds_one s -> holds_one (fst (est_client_disconnect i x s)).
Proof.
  intros [i|] s H; [|exact H]. unfold est_client_disconnect.
  set (s1 := match k_sess (s_k s) with None => _ | Some _ => _ end).
  assert (P : holds_one s1).
  { unfold s1. destruct H as [[H1 H2]|[H1 H2]]; rewrite H1.
    - right. cbn. rewrite H2. auto.
    - replace (x =? x) with true by lia. right. auto. }
  destruct (k_connected (s_k (SSL_free (Some i) s1))); cbn [fst]; [|exact P].
  assert (Q := close_one (SSL_free (Some i) s1) P). exact Q.
Qed.
Lemma try_one : forall l fd e s, holds_one s -> holds_one (snd (try_addresses pick l fd e s)).
Proof.
  induction l as [|[a [| |]] l IH]; intros fd e s H; cbn [try_addresses]; [exact H|apply IH; exact H|apply IH; exact H|exact H].
Qed.
Lemma connect_one : forall d ssl s e i s', d_session d = x -> holds_one s ->
  est_client_connect pick d ssl s = Ok (e, i, s') -> holds_one s'.
Proof.
  intros d ssl s e i s' X H K. unfold est_client_connect, tcw_connect in K.
  destruct (d_addrs d) as [l|]; [|injection K as _ _ <-; exact H].
  assert (T := try_one l None TCW_OK (set_fd (-1) s) H).
  destruct (try_addresses pick l None TCW_OK (set_fd (-1) s)) as [[[fd|] r] s1]; [|discriminate K]. cbn [snd bind] in *.
  set (s2 := if 0 <=? fd then set_fd fd s1 else s1) in K.
  assert (P2 : holds_one s2) by (unfold s2; destruct (0 <=? fd); exact T). clearbody s2.
  assert (P3 := close_one s2 P2).
  destruct r; try (injection K as _ _ <-; assumption).
  destruct (negb (d_keepalive d)); [injection K as _ _ <-; assumption|].
  destruct (negb (d_bio d)); [injection K as _ _ <-; assumption|].
  destruct (negb (d_ssl d)); [injection K as _ _ <-; assumption|].
  set (s4 := set_tls _ s2) in K. assert (P4 : holds_one s4) by exact P2. clearbody s4.
  destruct (negb (d_tls d)); [injection K as _ _ <-; now apply close_one|].
  destruct (d_name d); [injection K as _ _ <-; exact P4|].
  assert (P5 := disconnect_one (Some (pick (w_tls (s_w s2)))) (set_connected true s4) P4). rewrite X in K.
  destruct (est_client_disconnect (Some (pick (w_tls (s_w s2)))) x (set_connected true s4)) as [s5 i5]. injection K as _ _ <-. exact P5.
Qed.
Definition sessions_of (c : call) : list Z :=
  match c with
  | Operation d1 _ _ d2 => [d_session d1; d_session d2]
  | Fetch d | Relay d => [d_session d]
  | Voucher d1 _ _ _ d2 _ => [d_session d1; d_session d2]
  end.
Ltac sess_step :=
  match goal with
  | H : bind (est_client_connect pick ?d ?i ?s) _ = Ok ?r |- _ =>
    let e := fresh "e" in let y := fresh "y" in let t := fresh "t" in let K := fresh "K" in
    destruct (est_client_connect pick d i s) as [[[e y] t]|] eqn:K; cbn [bind] in H; [|discriminate H];
    apply connect_one in K; [|assumption|assumption];
    destruct (err_none_dec e) as [->|?];
    [|let H' := fresh "H'" in assert (H' : Ok (SSL_free y t) = Ok r \/ Ok t = Ok r) by (destruct e; (left; exact H) || (right; exact H) || contradiction);
      clear H; destruct H' as [H|H]; injection H as <-; solve [exact K | apply free_one; exact K]]
  | H : context [est_client_disconnect ?i x ?s], P : holds_one ?s |- _ =>
    let Q := fresh "Q" in pose proof (disconnect_one i s P) as Q; destruct (est_client_disconnect i x s) as [? ?]; cbn [fst] in Q
  | H : (if ?b then _ else _) = Ok _ |- _ => destruct b
  | H : Ok _ = Ok _ |- _ => injection H as <-; solve [assumption | apply free_one; assumption]
  end.
Lemma perform_one : forall c s s', Forall (fun y => y = x) (sessions_of c) -> holds_one s -> perform pick c s = Ok s' -> holds_one s'.
Proof.
  intros c s s' F H K.
  destruct c as [d1 a b d2|d|d|d1 r a b d2 r2]; cbn [sessions_of perform] in *;
    [unfold two_attempts in K|unfold one_attempt in K|unfold proxy_attempt in K|unfold voucher_attempts in K];
    repeat match goal with F : Forall _ (_ :: _) |- _ => let G := fresh "G" in pose proof (Forall_inv F) as G; cbv beta in G; apply Forall_inv_tail in F end;
    repeat match goal with G : d_session ?d = x |- _ => rewrite G in K; revert G end; intros; repeat sess_step.
Qed.
End Proofs.
