(** C73-C75: what a client call leaves open, which addresses it tries, and what
    happens to cached TLS sessions. *)
From Coq Require Import ZArith List Bool Lia ZifyBool.
From Verif Require Import Base Model.EstErr Model.Connection Spec.Connection Proofs.Connection.
Import ListNotations.
Open Scope Z_scope.

(** An operating system that takes the number after the largest in use; a network. *)
Definition next_free (l : list Z) : Z := fold_right Z.max 2 l + 1.
Lemma next_free_new : gives_new next_free.
Proof.
  intros l. unfold next_free.
  assert (H : 2 <= fold_right Z.max 2 l /\ forall x, In x l -> x <= fold_right Z.max 2 l).
  { induction l as [|y l [IH1 IH2]]; cbn; [split; [lia|tauto]|]. split; [lia|]. intros x [->|K]; [lia|]. specialize (IH2 x K). lia. }
  destruct H as [H1 H2]. split; [lia|]. intros K. specialize (H2 _ K). lia.
Qed.
Definition works (l : list (Z * reply)) (session : Z) : dial :=
  {| d_addrs := Some l; d_keepalive := true; d_bio := true; d_ssl := true; d_tls := true; d_name := true; d_session := session |}.
Definition handshake_fails : dial :=
  {| d_addrs := Some [(1, Connects)]; d_keepalive := true; d_bio := true; d_ssl := true; d_tls := false; d_name := true; d_session := 0 |}.
Definition fresh_ctx : st :=
  {| s_w := {| w_open := [0; 1; 2]; w_tls := []; w_sess := []; w_tried := [] |}; s_k := {| k_fd := -1; k_connected := false; k_sess := None |} |}.

(** ** C73: an operation of the client (enrollment, re-enrollment, key
    generation, CA certificates, CSR attributes, BRSKI status) leaves exactly the
    sockets and TLS objects that were there before, whatever fails. *)
Theorem C73_operation : forall pick, gives_new pick -> forall d1 again blocked d2 s, resolves d1 -> resolves d2 ->
  exists s', perform pick (Operation d1 again blocked d2) s = Ok s' /\ nothing_left s s'.
Proof. intros pick N. exact (two_released pick N). Qed.
Print Assumptions C73_operation.
Theorem C73_fetch : forall pick, gives_new pick -> forall d s, resolves d ->
  exists s', perform pick (Fetch d) s = Ok s' /\ nothing_left s s'.
Proof. intros pick N. exact (one_released pick N). Qed.
Print Assumptions C73_fetch.
(** A voucher request does so if nonce, time and the server's certificate are had. *)
Theorem C73_voucher_partial : forall pick, gives_new pick -> forall d1 again blocked d2 ready2 s, resolves d1 -> resolves d2 ->
  (again = true -> blocked = false -> ready2 = true) ->
  exists s', perform pick (Voucher d1 true again blocked d2 ready2) s = Ok s' /\ nothing_left s s'.
Proof. intros pick N d1 a b d2 r2 s R1 R2 H. exact (voucher_released pick N d1 true a b d2 r2 s R1 R2 eq_refl H). Qed.
Print Assumptions C73_voucher_partial.
(** The proxy closes its sockets; it loses a TLS object when a handshake fails. *)
Theorem C73_proxy_partial : forall pick, gives_new pick -> forall d s, resolves d ->
  exists s', perform pick (Relay d) s = Ok s' /\ w_open (s_w s') = w_open (s_w s) /\ (d_tls d = true -> nothing_left s s').
Proof.
  intros pick N d s R. destruct (proxy_left pick N d s R) as (s' & K & K1 & K2). exists s'. split; [exact K|]. split; [exact K1|].
  intros T. destruct K2 as [K2|[K2 _]]; [split; assumption|congruence].
Qed.
Print Assumptions C73_proxy_partial.
(** Every history of the client's own operations. *)
Definition sound (c : call) : Prop :=
  match c with
  | Operation d1 _ _ d2 => resolves d1 /\ resolves d2
  | Fetch d => resolves d
  | Relay d => resolves d /\ d_tls d = true
  | Voucher d1 r a b d2 r2 => resolves d1 /\ resolves d2 /\ r = true /\ (a = true -> b = false -> r2 = true)
  end.
Theorem C73_history : forall pick, gives_new pick -> forall calls s, Forall sound calls ->
  exists s', perform_all pick calls s = Ok s' /\ nothing_left s s'.
Proof.
  intros pick N. induction calls as [|c l IH]; intros s F; [exists s; split; [reflexivity|split; reflexivity]|].
  assert (S := Forall_inv F). apply Forall_inv_tail in F. cbn [perform_all].
  assert (K : exists s', perform pick c s = Ok s' /\ nothing_left s s').
  { destruct c as [d1 a b d2|d|d|d1 r a b d2 r2]; cbn in S.
    - destruct S. now apply C73_operation.
    - now apply C73_fetch.
    - destruct S as [R T]. destruct (C73_proxy_partial pick N d s R) as (s' & K & _ & K2). exists s'. auto.
    - destruct S as (R1 & R2 & -> & H). now apply C73_voucher_partial. }
  destruct K as (s1 & K1 & L1). rewrite K1. cbn [bind]. destruct (IH s1 F) as (s2 & K2 & L2). exists s2.
  split; [exact K2|]. exact (left_trans _ _ _ L1 L2).
Qed.
Print Assumptions C73_history.
Example C73_run : exists s, perform_all next_free
    [Operation (works [(1, NoConnect); (2, Connects)] 7) true false (works [(1, Connects)] 7); Fetch handshake_fails] fresh_ctx = Ok s
  /\ w_open (s_w s) = [0; 1; 2] /\ w_tls (s_w s) = [] /\ w_tried (s_w s) = [1; 2; 1; 1] /\ w_sess (s_w s) = [7].
Proof. eexists. split; [vm_compute; reflexivity|]. repeat split. Qed.
Example C73_met : gives_new next_free /\ Forall sound [Operation (works [(1, Connects)] 7) true false (works [(1, NoSocket)] 7); Fetch handshake_fails; Relay (works [(1, Connects)] 7)].
Proof. split; [exact next_free_new|]. repeat constructor; discriminate. Qed.

(** The exceptions are real.  Each handshake of the proxy that fails leaves a TLS
    object; a voucher request that fails after connecting leaves socket and TLS
    object, and on its second connection the socket. *)
Theorem C73_proxy_refuted : forall pick, gives_new pick -> forall s, exists s' i,
  perform pick (Relay handshake_fails) s = Ok s' /\ w_tls (s_w s') = i :: w_tls (s_w s).
Proof.
  intros pick N s. unfold perform, proxy_attempt, est_client_connect, tcw_connect, handshake_fails. cbn -[tcw_close].
  do 2 eexists. split; [reflexivity|]. destruct (0 <=? pick (w_open (s_w s))); unfold tcw_close; destruct (in_dec _ _ _); cbn -[remove]; reflexivity.
Qed.
Print Assumptions C73_proxy_refuted.
Theorem C73_voucher_refuted :
  (exists s, perform next_free (Voucher (works [(1, Connects)] 7) false false false (works [(1, Connects)] 7) true) fresh_ctx = Ok s
     /\ w_open (s_w s) = [3; 0; 1; 2] /\ w_tls (s_w s) = [3])
  /\ (exists s, perform_all next_free [Voucher (works [(1, Connects)] 7) true true false (works [(1, Connects)] 7) false; Fetch (works [(1, Connects)] 7)] fresh_ctx = Ok s
     /\ w_open (s_w s) = [3; 0; 1; 2] /\ w_tls (s_w s) = []).
Proof. split; (eexists; split; [vm_compute; reflexivity|]; repeat split). Qed.
Print Assumptions C73_voucher_refuted.

(** ** C74: the client tries the resolver's addresses in their order, uses the
    first that answers, and fails to connect only if none does. *)
Theorem C74_first : forall pick, gives_new pick -> forall d ssl s before a after,
  d_addrs d = Some (before ++ (a, Connects) :: after) -> none_answers before ->
  d_keepalive d = true -> d_bio d = true -> d_ssl d = true -> d_tls d = true -> d_name d = true ->
  exists i s', est_client_connect pick d ssl s = Ok (EST_ERR_NONE, Some i, s')
    /\ w_tried (s_w s') = w_tried (s_w s) ++ with_socket before ++ [a]
    /\ exists fd, w_open (s_w s') = fd :: w_open (s_w s) /\ k_fd (s_k s') = fd.
Proof.
  intros pick N d ssl s pre a post A H Hk Hb Hs Ht Hn. unfold est_client_connect, tcw_connect. rewrite A.
  destruct (try_found pick N pre None TCW_OK (set_fd (-1) s) a post H) as (s' & n & K & N0 & N1 & K1 & K2 & K3 & K4 & K5). rewrite K.
  cbn [bind]. replace (0 <=? n) with true by lia. rewrite Hk, Hb, Hs, Ht, Hn. cbn [negb].
  do 2 eexists. split; [reflexivity|]. split; [exact K4|]. exists n. split; [exact K1|reflexivity].
Qed.
Print Assumptions C74_first.
Theorem C74_none : forall pick, gives_new pick -> forall d ssl s l,
  d_addrs d = Some l -> l <> [] -> none_answers l ->
  exists s', est_client_connect pick d ssl s = Ok (EST_ERR_IP_CONNECT, ssl, s')
    /\ w_tried (s_w s') = w_tried (s_w s) ++ with_socket l /\ w_open (s_w s') = w_open (s_w s).
Proof.
  intros pick N d ssl s l A Q H. unfold est_client_connect, tcw_connect. rewrite A.
  destruct (try_split pick N l None TCW_OK (set_fd (-1) s) H) as (s' & K & K1 & K2 & K3 & K4 & K5). rewrite K.
  destruct l as [|y l]; [contradiction|]. cbn [bind]. change (0 <=? -1) with false. cbn match.
  destruct (rev (y :: l)) as [|[b q] t] eqn:Z; [apply (f_equal (@length _)) in Z; rewrite rev_length in Z; discriminate Z|].
  exists s'. split; [destruct q; reflexivity|]. split; [exact K4|exact K1].
Qed.
Print Assumptions C74_none.
Theorem C74_unresolved : forall pick d ssl s, d_addrs d = None ->
  exists s', est_client_connect pick d ssl s = Ok (EST_ERR_IP_GETADDR, ssl, s') /\ s_w s' = s_w s.
Proof. intros pick d ssl s A. unfold est_client_connect, tcw_connect. rewrite A. cbn. eexists. split; reflexivity. Qed.
Print Assumptions C74_unresolved.
Example C74_met : none_answers [(1, NoConnect); (2, NoSocket)] /\ with_socket [(1, NoConnect); (2, NoSocket)] = [1].
Proof. split; [|reflexivity]. intros a [K|[K|[]]]; discriminate K. Qed.

(** ** C75: destroying a context gives back the TLS sessions it took.  It gives
    back one: enough if every connection resumed the same session ... *)
Theorem C75_partial : forall pick x calls s s', k_sess (s_k s) = None ->
  Forall (fun c => Forall (fun y => y = x) (sessions_of c)) calls ->
  perform_all pick calls s = Ok s' -> w_sess (s_w (est_destroy s')) = w_sess (s_w s).
Proof.
  intros pick x calls s s' H0 F K.
  assert (P : holds_one x (w_sess (s_w s)) s').
  { assert (P0 : holds_one x (w_sess (s_w s)) s) by (left; auto). revert P0. generalize (w_sess (s_w s)) as base. intros base P0.
    clear H0. revert s F K P0. induction calls as [|c l IH]; intros s F K P0; [injection K as <-; exact P0|].
    cbn in K. destruct (perform pick c s) as [s1|] eqn:E; [|discriminate K]. cbn [bind] in K.
    eapply (IH s1); [exact (Forall_inv_tail F)|exact K|]. eapply perform_one; [exact (Forall_inv F)|exact P0|exact E]. }
  unfold est_destroy. destruct P as [[-> P]|[-> P]]; [exact P|]. cbn. rewrite P. cbn. now rewrite Z.eqb_refl.
Qed.
Print Assumptions C75_partial.
Example C75_met : exists s, perform_all next_free [Fetch (works [(1, Connects)] 7); Fetch (works [(1, Connects)] 7)] fresh_ctx = Ok s
  /\ w_sess (s_w s) = [7] /\ w_sess (s_w (est_destroy s)) = [].
Proof. eexists. split; [vm_compute; reflexivity|]. repeat split. Qed.
(** ... but not if the server did not resume: the reference to the earlier session
    is overwritten and never given back. *)
Theorem C75_refuted : forall n, exists calls s, length calls = S n
  /\ perform_all next_free calls fresh_ctx = Ok s /\ length (w_sess (s_w (est_destroy s))) = n.
Proof.
  assert (R : forall n s x, (match k_sess (s_k s) with Some y => y < x | None => True end) -> hd_error (w_sess (s_w s)) = k_sess (s_k s) ->
    exists calls s', length calls = S n /\ perform_all next_free calls s = Ok s'
      /\ length (w_sess (s_w s')) = (S n + length (w_sess (s_w s)))%nat /\ hd_error (w_sess (s_w s')) = k_sess (s_k s') /\ k_sess (s_k s') <> None).
  { assert (O : forall s x, (match k_sess (s_k s) with Some y => y < x | None => True end) ->
      exists s', one_attempt next_free (works [(1, Connects)] x) s = Ok s' /\ w_sess (s_w s') = x :: w_sess (s_w s) /\ k_sess (s_k s') = Some x).
    { intros s x H. unfold one_attempt, est_client_connect, tcw_connect, works. cbn -[tcw_close SSL_free est_client_disconnect].
      unfold est_client_disconnect. cbn -[tcw_close SSL_free].
      assert (E : 0 <= next_free (w_open (s_w s))) by apply next_free_new.
      replace (0 <=? next_free (w_open (s_w s))) with true by lia. cbn -[tcw_close SSL_free].
      set (s1 := match k_sess (s_k s) with None => _ | Some _ => _ end).
      assert (A : w_sess (s_w s1) = x :: w_sess (s_w s) /\ k_sess (s_k s1) = Some x /\ k_connected (s_k s1) = true).
      { unfold s1. destruct (k_sess (s_k s)) as [y|]; [replace (x =? y) with false by lia|]; cbn; auto. }
      destruct A as (A1 & A2 & A3). clearbody s1. unfold SSL_free at 2. cbn -[tcw_close SSL_free]. rewrite A3.
      eexists. split; [reflexivity|]. unfold SSL_free. unfold tcw_close. destruct (in_dec _ _ _); cbn; auto. }
    induction n as [|n IH]; intros s x H Hd.
    - destruct (O s x H) as (s' & K & K1 & K2). exists [Fetch (works [(1, Connects)] x)], s'. cbn [perform_all perform]. rewrite K. cbn [bind].
      rewrite K1, K2. repeat split; discriminate.
    - destruct (O s x H) as (s1 & K & K1 & K2).
      destruct (IH s1 (x + 1)) as (cs & s' & L & P & Q1 & Q2 & Q3); [rewrite K2; lia|rewrite K1, K2; reflexivity|].
      exists (Fetch (works [(1, Connects)] x) :: cs), s'. cbn [perform_all perform length]. rewrite K. cbn [bind].
      split; [lia|]. split; [exact P|]. split; [rewrite Q1, K1; cbn; lia|]. auto. }
  intros n. destruct (R n fresh_ctx 1 I eq_refl) as (cs & s' & L & P & Q1 & Q2 & Q3). exists cs, s'. split; [exact L|]. split; [exact P|].
  unfold est_destroy. destruct (k_sess (s_k s')) as [y|]; [|congruence]. destruct (w_sess (s_w s')) as [|z l] eqn:W; [discriminate Q2|].
  injection Q2 as ->. cbn. rewrite Z.eqb_refl. cbn in Q1. lia.
Qed.
Print Assumptions C75_refuted.
