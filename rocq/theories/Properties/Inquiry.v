(** C76 and C77: what the client context tells about the server's answers. *)
From Coq Require Import String ZArith List Bool Lia ZifyBool.
From Verif Require Import Base Spec.Http Spec.Client Spec.Multipart Spec.Inquiry Model.CLib Model.EstErr Model.HttpServer Model.Uri Model.ClientHttp Model.Multipart Model.Host Model.Client Model.Inquiry
  Proofs.HttpParse Proofs.ClientHeaders Proofs.ClientRounds Proofs.Inquiry.
From Verif Require Properties.ClientRuns.
Import ListNotations.
Open Scope Z_scope.

Definition start (anchors : bytes) (world : list attempt) : st := {| s_c := est_client_init anchors; s_env := world |}.

(** C76, what holds: whatever was called before, the status read is that of the
    server's answer to the last request that was sent (-1 for an answer the
    client does not know), 0 when there was none; and asking changes nothing. *)
Theorem C76_partial : forall X anchors world log s evs a s', dialogue X (start anchors world) log s ->
  perform_ask X LastStatus s = (evs, Ok (a, s')) ->
  evs = [] /\ s' = s /\ exists n, a = Status n /\ status_told (all_events log) n.
Proof.
  intros X an w log s evs a s' D H. cbn in H. injection H as <- <- <-. destruct s as [c w']. split; [reflexivity|]. split; [reflexivity|].
  eexists. split; [reflexivity|]. exact (dialogue_status _ _ _ _ _ D).
Qed.
Print Assumptions C76_partial.

(** The events leave no choice of the status. *)
Lemma status_line_fun : forall n m d, In n known_statuses -> In m known_statuses -> status_line n d -> status_line m d -> n = m.
Proof.
  intros n m d Hn Hm [t E] [u F]. rewrite E in F. unfold known_statuses in *. cbn [In] in Hn, Hm.
  repeat (destruct Hn as [<-|Hn]; [repeat (destruct Hm as [<-|Hm]; [first [reflexivity|discriminate F]|]); destruct Hm|]). destruct Hn.
Qed.
Lemma known_positive : forall n, In n known_statuses -> n <> -1.
Proof. intros n H. unfold known_statuses in H. cbn [In] in H. intuition lia. Qed.
Theorem C76_told_once : forall evs n m, status_told evs n -> status_told evs m -> n = m.
Proof.
  intros evs n m Hn. revert m. induction Hn as [|evs s p a n H IH|evs q n H IH|evs r n n' H IH A|evs r n H IH A]; intros m Hm; inversion Hm as [E|evs' s' p' a' n1 H' E|evs' q' n1 H' E|evs' r' n1 n2 H' A' E|evs' r' n1 H' A' E];
    try (symmetry in E; apply app_eq_nil in E as [_ E]; discriminate); try (apply (f_equal (@rev event)) in E; rewrite ?rev_app_distr in E; cbn in E; discriminate);
    try reflexivity; try (match goal with E : [] = _ ++ _ |- _ => symmetry in E; apply app_eq_nil in E as [_ E]; discriminate end);
    apply app_inj_tail in E as [E Eq]; try discriminate; subst.
  - now apply IH.
  - injection Eq as ->. destruct A as (d & D & L & A). destruct A' as (d' & D' & L' & A'). rewrite (arrives_fun _ _ _ D' D) in A'. destruct A as [[I A]|[-> A]], A' as [[I' A']|[-> A']].
    + eapply status_line_fun; eauto.
    + destruct (A' _ I A).
    + destruct (A _ I' A').
    + reflexivity.
  - injection Eq as ->. destruct A as (d & D & L & A). destruct (A' _ D); lia.
  - injection Eq as ->. destruct A' as (d & D & L & _). destruct (A _ D); lia.
  - now apply IH.
Qed.
Print Assumptions C76_told_once.

(** Runs. *)
Fixpoint converse (X : ext) (xs : list ask) (log : list saying) (s : st) : option (list saying * st) :=
  match xs with
  | [] => Some (log, s)
  | x :: xs => match perform_ask X x s with
    | (evs, Ok (a, s')) => converse X xs (log ++ [{| y_ask := x; y_events := evs; y_answer := a |}]) s'
    | _ => None
    end
  end.
Lemma converse_dialogue : forall X xs log s0 s log' s', dialogue X s0 log s -> converse X xs log s = Some (log', s') -> dialogue X s0 log' s' /\ map y_ask log' = map y_ask log ++ xs.
Proof.
  intros X. induction xs as [|x xs IH]; intros log s0 s log' s' H E; cbn [converse] in E.
  - injection E as <- <-. rewrite app_nil_r. auto.
  - destruct (perform_ask X x s) as [evs [[a s1]|]] eqn:P; [|discriminate]. apply (IH _ s0) in E as [E1 E2]; [|eapply dialogue_call; eauto].
    split; [exact E1|]. rewrite E2, map_app, <- app_assoc. reflexivity.
Qed.
Lemma said : forall X xs a w l (P : st -> bool), match converse X xs [] (start a w) with Some (log, s) => if P s then Some (map y_answer log) else None | None => None end = Some l ->
  exists log s, dialogue X (start a w) log s /\ map y_ask log = xs /\ map y_answer log = l /\ P s = true.
Proof.
  intros X xs a w l P H. destruct (converse X xs [] (start a w)) as [[log s]|] eqn:E; [|discriminate]. exists log, s.
  destruct (converse_dialogue X xs [] (start a w) (start a w) log s) as [H1 H2]; [constructor|exact E|]. destruct (P s); [|discriminate]. injection H as <-. auto.
Qed.
Notation X0 := Properties.ClientRuns.X0.
Notation answering := Properties.ClientRuns.answering.
Notation giving := Properties.ClientRuns.giving.
Notation enrol := (Do (Enroll (str "name") (Some (str "key")))).
Notation at_a := (Do (Properties.ClientRuns.server "a.example")).
Notation certificate := (giving "application/pkcs7-mime; smime-type=certs-only" "certificate" "11").
Definition later (n : string) : bytes := str "HTTP/1.1 202 Accepted" ++ CRLF ++ str "Retry-After: " ++ str n ++ CRLF ++ str "Content-Length: 0" ++ CRLF ++ CRLF.
Lemma X0_own : own_errors X0.
Proof. repeat split; intros; cbn; discriminate. Qed.

(** A conversation: before anything 0, then the statuses of the answers. *)
Example C76_case : exists log s, dialogue X0 (start (str "anchors") [answering true certificate; answering true (str "HTTP/1.1 503 Busy" ++ CRLF ++ CRLF); answering true (later "120")]) log s
  /\ map y_ask log = [at_a; LastStatus; enrol; LastStatus; enrol; LastStatus; enrol; LastStatus]
  /\ map y_answer log = [Done EST_ERR_NONE None; Status 0; Done EST_ERR_NONE None; Status 200; Done EST_ERR_UNKNOWN None; Status (-1); Done EST_ERR_CA_ENROLL_RETRY None; Status 202].
Proof.
  destruct (said X0 [at_a; LastStatus; enrol; LastStatus; enrol; LastStatus; enrol; LastStatus] (str "anchors") [answering true certificate; answering true (str "HTTP/1.1 503 Busy" ++ CRLF ++ CRLF); answering true (later "120")] [Done EST_ERR_NONE None; Status 0; Done EST_ERR_NONE None; Status 200; Done EST_ERR_UNKNOWN None; Status (-1); Done EST_ERR_CA_ENROLL_RETRY None; Status 202] (fun _ => true))
    as (log & s & H1 & H2 & H3 & _); [vm_compute; reflexivity|]. exists log, s. auto.
Qed.
Print Assumptions C76_case.

(** C76, full statement: the status read is that of the answer to the last
    operation, none if that got no answer.  It fails: an operation that cannot
    even connect leaves the status 200 of the one before. *)
Theorem C76_refuted : exists X anchors world log s x evs e s', dialogue X (start anchors world) log s
  /\ perform X x s = (evs, Ok (e, None, s')) /\ e = EST_ERR_IP_CONNECT /\ evs = [EConnect (str "a.example") 443 anchors]
  /\ perform_ask X LastStatus s' = ([], Ok (Status 200, s')).
Proof.
  set (w := [answering true certificate; Refused NoConnection]).
  destruct (said X0 [at_a; enrol] (str "anchors") w [Done EST_ERR_NONE None; Done EST_ERR_NONE None]
    (fun s => match perform X0 (Enroll (str "name") (Some (str "key"))) s with
              | ([EConnect n p a], Ok (EST_ERR_IP_CONNECT, None, s')) => beq n (str "a.example") && (p =? 443) && beq a (str "anchors") && (k_status (c_http (s_c s')) =? 200)
              | _ => false end)) as (log & s & H1 & _ & _ & H); [vm_compute; reflexivity|].
  destruct (perform X0 _ s) as [evs r] eqn:P. destruct evs as [|[n p a| |] [|]]; try discriminate. destruct r as [[[e o] s']|]; [|discriminate]. destruct e; try discriminate. destruct o; [discriminate|].
  repeat match goal with B : _ && _ = true |- _ => apply andb_prop in B as [B ?] end. repeat match goal with B : beq _ _ = true |- _ => apply beq_eq in B end. repeat match goal with B : (_ =? _) = true |- _ => apply Z.eqb_eq in B end. subst.
  exists X0, (str "anchors"), w, log, s, (Enroll (str "name") (Some (str "key"))), [EConnect (str "a.example") 443 (str "anchors")], EST_ERR_IP_CONNECT, s'.
  repeat split; auto. cbn. match goal with B : k_status _ = 200 |- _ => rewrite B end. destruct s'; reflexivity.
Qed.
Print Assumptions C76_refuted.

(** C77, what holds.  When a call says to come back, it is because the server's
    answer to its last request, with which it ended, is a 202 that asks to wait;
    the delay read is the server's, and reading it again gives zero. *)
Theorem C77_partial : forall X x s evs out s', own_errors X -> perform X x s = (evs, Ok (EST_ERR_CA_ENROLL_RETRY, out, s')) ->
  exists before r n, evs = before ++ [EResponse r] /\ asks_to_wait r n
    /\ forall evs1 a s1, perform_ask X RetryAfter s' = (evs1, Ok (a, s1)) ->
         evs1 = [] /\ (a = Delay EST_ERR_CLIENT_NOT_INITIALIZED None
           \/ a = Delay EST_ERR_NONE (Some n) /\ exists s2, perform_ask X RetryAfter s1 = ([], Ok (Delay EST_ERR_NONE (Some 0), s2))).
Proof.
  intros X x s evs out s' O H. destruct (retry_waits X O x s evs out s' H) as (b & r & E & W). exists b, r, (k_delay (c_http (s_c s'))). split; [exact E|]. split; [exact W|].
  intros evs1 a s1 P. cbn in P. unfold est_client_copy_retry_after in P. cbv beta iota zeta delta [mbind get upd ret] in P. destruct (c_init (s_c s')) eqn:I; cbn in P; injection P as <- <- <-; (split; [reflexivity|]); [right|now left].
  split; [reflexivity|]. eexists. cbn. unfold est_client_copy_retry_after. cbv beta iota zeta delta [mbind get upd ret]. cbn. rewrite I. reflexivity.
Qed.
Print Assumptions C77_partial.

(** Whatever the calls, a delay read is zero or one some server asked for. *)
Theorem C77_history : forall X anchors world log s evs n s', dialogue X (start anchors world) log s ->
  perform_ask X RetryAfter s = (evs, Ok (Delay EST_ERR_NONE (Some n), s')) ->
  n = 0 \/ exists r, In (EResponse r) (all_events log) /\ asks_to_wait r n.
Proof.
  intros X an w log s evs n s' D H. apply dialogue_delay in D. cbn in H. unfold est_client_copy_retry_after in H. cbv beta iota zeta delta [mbind get upd ret] in H. destruct (c_init (s_c s)); cbn in H; [|discriminate].
  injection H as <- <- <-. exact D.
Qed.
Print Assumptions C77_history.

(** The server says 120; the delay is read once. *)
Example C77_case : exists log s, dialogue X0 (start (str "anchors") [answering true (later "120")]) log s
  /\ map y_ask log = [at_a; RetryAfter; enrol; RetryAfter; RetryAfter]
  /\ map y_answer log = [Done EST_ERR_NONE None; Delay EST_ERR_NONE (Some 0); Done EST_ERR_CA_ENROLL_RETRY None; Delay EST_ERR_NONE (Some 120); Delay EST_ERR_NONE (Some 0)].
Proof.
  destruct (said X0 [at_a; RetryAfter; enrol; RetryAfter; RetryAfter] (str "anchors") [answering true (later "120")] [Done EST_ERR_NONE None; Delay EST_ERR_NONE (Some 0); Done EST_ERR_CA_ENROLL_RETRY None; Delay EST_ERR_NONE (Some 120); Delay EST_ERR_NONE (Some 0)] (fun _ => true))
    as (log & s & H1 & H2 & H3 & _); [vm_compute; reflexivity|]. exists log, s. auto.
Qed.
Print Assumptions C77_case.

(** C77, full statement: a delay other than zero is read only after the last
    operation was told to come back.  It fails: after an enrollment that
    succeeded, the delay of the one before it is read. *)
Theorem C77_refuted : exists X anchors world log s, own_errors X /\ dialogue X (start anchors world) log s
  /\ map y_ask log = [at_a; enrol; enrol; RetryAfter]
  /\ map y_answer log = [Done EST_ERR_NONE None; Done EST_ERR_CA_ENROLL_RETRY None; Done EST_ERR_NONE None; Delay EST_ERR_NONE (Some 120)].
Proof.
  exists X0, (str "anchors"), [answering true (later "120"); answering true certificate].
  destruct (said X0 [at_a; enrol; enrol; RetryAfter] (str "anchors") [answering true (later "120"); answering true certificate] [Done EST_ERR_NONE None; Done EST_ERR_CA_ENROLL_RETRY None; Done EST_ERR_NONE None; Delay EST_ERR_NONE (Some 120)] (fun _ => true))
    as (log & s & H1 & H2 & H3 & _); [vm_compute; reflexivity|]. exists log, s. split; [exact X0_own|]. auto.
Qed.
Print Assumptions C77_refuted.
