(** C78: BRSKI status messages.  Read with Spec/Status.v ([object]: how a
    registrar reads a JSON text; [posts]: the body of a request) and
    Spec/Client.v, Spec/Http.v, Spec/Base64.v.

    Status 1 is EST_BRSKI_STATUS_SUCCESS, 2 is EST_BRSKI_STATUS_FAIL.  A state
    is a client and what will happen on its connections. *)
From Coq Require Import String ZArith List Bool Lia ZifyBool ZifyNat.
From Verif Require Import Base Spec.Base64 Spec.Http Spec.Client Spec.Multipart Spec.ClientCalls Model.CLib Model.Codec Model.EstErr Model.HttpServer Model.Uri Model.AuthHdr Model.ClientHttp Model.Host Model.Client Model.Status
  Proofs.ClientHttp Proofs.ClientCalls Proofs.Codec Proofs.Status Spec.Status.
Import ListNotations.
Open Scope Z_scope.

(** The server's name, port and path segment are as the setters allow (C28,
    C45), and random numbers can be had. *)
Definition ready (s : st) : Prop :=
  len (c_server (s_c s)) <= 255 /\ 0 <= c_port (s_c s) <= 65535 /\ match c_path (s_c s) with Some p => len p <= 128 | None => True end
  /\ forall t, In (Tls t) (s_env s) -> t_rnd t <> None.
Definition at_path (s : st) (name : bytes) : bytes :=
  str "/.well-known/est" ++ match c_path (s_c s) with Some p => str "/" ++ p | None => [] end ++ str "/" ++ name.

(** ** What the registrar reads *)

(** A text has at most one reading. *)
Theorem C78_one_reading : forall ms ms' t, object ms t -> object ms' t -> ms = ms'.
Proof. exact object_fun. Qed.
Print Assumptions C78_one_reading.

(** Every request a voucher status call sends is a POST to voucher_status whose
    body is a JSON object with exactly the status and the reason given; nothing
    is cut.  Partial: reasons of characters that JSON does not have to escape. *)
Theorem C78_partial : forall X s status reason evs r q, ready s -> plain reason ->
  est_client_brski_send_voucher_status X true status (Some reason) s = (evs, r) -> In (ERequest q) evs ->
  exists body, posts (at_path s (str "voucher_status")) body q
    /\ object [(str "version", Text (str "1")); (str "Status", Truth (status =? 1)); (str "Reason", Text reason)] body.
Proof.
  intros X [c w] status reason evs r q (F1 & F2 & F3 & R) P H I. cbn [s_c s_env] in *.
  assert (N : no_nul reason) by (intro J; unfold plain in P; rewrite Forall_forall in P; specialize (P 0 J); lia).
  destruct (voucher_run X c w true status (Some reason)) as [(r0 & st & E & Es & L & _ & Hd)|(_ & e & _ & Hd)]; [intros ? J; injection J as <-; exact N| |rewrite H in Hd; injection Hd as -> _; destruct I].
  injection E as <-. rewrite H in Hd. symmetry in Hd. apply deliver_run in Hd as (Q & _); [|repeat split; tauto|exact R|pose proof (voucher_len st reason ltac:(apply status_len in Es; lia) L); lia].
  exists (voucher_message st reason). split; [exact (Q q I)|]. now apply voucher_object.
Qed.
Print Assumptions C78_partial.

(** The same for enrollment status; [id] is the key identifier, a string of
    octets, which the registrar gets in base64. *)
Theorem C78_enroll_partial : forall X s status reason id rest evs r q, ready s -> plain reason -> all_bytes id -> no_nul id ->
  est_client_brski_send_enroll_status X true status (Some reason) (Some (id ++ 0 :: rest)) s = (evs, r) -> In (ERequest q) evs ->
  exists body b64, posts (at_path s (str "enrollstatus")) body q /\ b64_decode b64 = Some id
    /\ object [(str "version", Text (str "1")); (str "Status", Truth (status =? 1)); (str "Reason", Text reason); (str "SubjectKeyIdentifier", Text b64)] body.
Proof.
  intros X [c w] status reason id rest evs r q (F1 & F2 & F3 & R) P Bi Ni H I. cbn [s_c s_env] in *.
  assert (N : no_nul reason) by (intro J; unfold plain in P; rewrite Forall_forall in P; specialize (P 0 J); lia).
  destruct (enroll_run X c w true status reason id rest N Ni Bi) as [(st & Es & G & Hd)|(_ & e & _ & Hd)]; [|rewrite H in Hd; injection Hd as -> _; destruct I].
  destruct G as (_ & _ & _ & L & _ & Li). rewrite H in Hd. symmetry in Hd.
  apply deliver_run in Hd as (Q & _); [|repeat split; tauto|exact R|pose proof (b64_encode_len id); pose proof (enroll_len st reason (b64_encode id) ltac:(apply status_len in Es; lia) L ltac:(lia)); lia].
  exists (enroll_message st reason (b64_encode id)), (b64_encode id). split; [exact (Q q I)|]. split; [now apply b64_decode_encode|]. apply enroll_object; auto. now apply b64_plain.
Qed.
Print Assumptions C78_enroll_partial.

(** ** What the caller is told *)

(** Arguments out of range are refused before anything is sent; otherwise the
    client connects to its server, at most twice, and reports success only when
    the last thing that happened was a request answered with 200.  Nothing else
    in the context changes. *)
Definition acceptable (s : st) (brski : bool) (status : Z) (reason : bytes) : Prop :=
  c_init (s_c s) = true /\ brski = true /\ (status = 1 \/ status = 2) /\ len reason <= 255.
Definition done (s : st) (run : list event * res (est_error * st)) : Prop :=
  hd_error (fst run) = Some (EConnect (c_server (s_c s)) (c_port (s_c s)) (c_trust (s_c s))) /\ (1 <= connects (fst run) <= 2)%nat
  /\ forall e s', snd run = Ok (e, s') ->
     (e = EST_ERR_NONE -> exists b q r d, fst run = b ++ [ERequest q; EResponse r] /\ arrives r d /\ starts (str "HTTP/1.1 200") d)
     /\ exists k, s_c s' = put_http k (s_c s).
Definition refused (s : st) (run : list event * res (est_error * st)) : Prop :=
  exists e, In e [EST_ERR_CLIENT_NOT_INITIALIZED; EST_ERR_INVALID_PARAMETERS] /\ run = ([], Ok (e, s)).

Theorem C78_outcome : forall X s brski status reason, ready s -> no_nul reason ->
  let run := est_client_brski_send_voucher_status X brski status (Some reason) s in
  (acceptable s brski status reason /\ hd 0 reason <> 10 -> done s run) /\ (~ (acceptable s brski status reason /\ hd 0 reason <> 10) -> refused s run).
Proof.
  intros X [c w] brski status reason (F1 & F2 & F3 & R) N run. subst run. unfold acceptable. cbn [s_c s_env] in *.
  destruct (voucher_run X c w brski status (Some reason)) as [(r0 & st & E & Es & L & G & Hd)|(G & e & Ie & Hd)]; [intros ? J; injection J as <-; exact N| |]; rewrite Hd.
  - injection E as <-. destruct G as (G1 & G2 & G3 & r1 & G4 & G5 & G6). injection G4 as <-. split; [intros _|intro C; elim C; repeat split; auto].
    destruct (deliver_status X OP_BRSKI_VOUCHER_STATUS (voucher_message st reason) {| s_c := c; s_env := w |}) as [evs r] eqn:D.
    apply deliver_run in D as (_ & Cn & Hh & Rr); [|repeat split; tauto|exact R|pose proof (voucher_len st reason ltac:(apply status_len in Es; lia) L); lia].
    split; [exact Hh|]. split; [exact Cn|]. intros e s' Er. cbn [snd] in Er. subst r. destruct Rr as [[k O] Nn]. split; [exact Nn|]. exists k. exact O.
  - split; [intros ((A1 & A2 & A3 & A4) & A5); elim G; repeat split; auto; exists reason; auto|]. intros _. exists e. auto.
Qed.
Print Assumptions C78_outcome.
Theorem C78_enroll_outcome : forall X s brski status reason id rest, ready s -> no_nul reason -> all_bytes id -> no_nul id ->
  let run := est_client_brski_send_enroll_status X brski status (Some reason) (Some (id ++ 0 :: rest)) s in
  (acceptable s brski status reason /\ hd 0 id <> 10 /\ 1 <= len id <= 24 -> done s run) /\ (~ (acceptable s brski status reason /\ hd 0 id <> 10 /\ 1 <= len id <= 24) -> refused s run).
Proof.
  intros X [c w] brski status reason id rest (F1 & F2 & F3 & R) N Bi Ni run. subst run. unfold acceptable. cbn [s_c s_env] in *.
  destruct (enroll_run X c w brski status reason id rest N Ni Bi) as [(st & Es & G & Hd)|(G & e & Ie & Hd)]; rewrite Hd.
  - destruct G as (G1 & G2 & G3 & G4 & G5 & G6). split; [intros _|intro C; elim C; repeat split; auto; lia].
    destruct (deliver_status X OP_BRSKI_ENROLL_STATUS (enroll_message st reason (b64_encode id)) {| s_c := c; s_env := w |}) as [evs r] eqn:D.
    apply deliver_run in D as (_ & Cn & Hh & Rr); [|repeat split; tauto|exact R|pose proof (b64_encode_len id); pose proof (enroll_len st reason (b64_encode id) ltac:(apply status_len in Es; lia) G4 ltac:(lia)); lia].
    split; [exact Hh|]. split; [exact Cn|]. intros e s' Er. cbn [snd] in Er. subst r. destruct Rr as [[k O] Nn]. split; [exact Nn|]. exists k. exact O.
  - split; [intros ((A1 & A2 & A3 & A4) & A5 & A6); elim G; repeat split; auto; lia|]. intros _. exists e. auto.
Qed.
Print Assumptions C78_enroll_outcome.

(** ** Cases and refutations *)
Definition X0 : ext := {|
  x_pton4 := fun _ => None; x_pton6 := fun _ => None; x_md5 := fun _ => repeat 7 16; x_bio := fun _ _ _ => []; x_fips := false; x_junk := fun _ => 0;
  x_uri := fun _ => None; x_brski := true; x_G := fun _ => None;
  x_make_csr := fun _ _ _ => (EST_ERR_NONE, []); x_sign_csr := fun _ _ _ => (EST_ERR_NONE, []); x_csr_of_cert := fun _ _ => (EST_ERR_NONE, None);
  x_key_matches := fun _ _ => false; x_p7_certs := fun _ => (EST_ERR_NONE, []); x_self_issued := fun _ => true; x_verify := fun _ _ _ => 1; x_remove_crls := fun b => (EST_ERR_NONE, b);
  x_to_pem := fun b => Some b; x_load_certs := fun _ => EST_ERR_NONE |}.
Definition talking (rnd : option bytes) (write : bool) (d : bytes) : attempt :=
  Tls {| t_cert := Some (Some [DNS (str "a.example")], []); t_srp := false; t_own := []; t_peer := []; t_reused := false; t_tls13 := false;
         t_rnd := rnd; t_cred := no_cred; t_write := write; t_reads := [Data d; Data []] |}.
Definition at_a (w : list attempt) : st := {| s_c := put_server (str "a.example") 443 (est_client_init (str "anchors")); s_env := w |}.
Definition fine : bytes := str "HTTP/1.1 200 OK" ++ CRLF ++ CRLF.
Definition asking : bytes := str "HTTP/1.1 401 Unauthorized" ++ CRLF ++ str "WWW-Authenticate: Basic realm=""estrealm""" ++ CRLF ++ CRLF.
Definition w0 : list attempt := [talking (Some (str "12345678")) true asking; talking (Some (str "12345678")) true fine].
Lemma at_a_ready : forall d1 d2 b1 b2, ready (at_a [talking (Some (str "12345678")) b1 d1; talking (Some (str "12345678")) b2 d2]).
Proof. intros. split; [cbn; lia|]. split; [cbn; lia|]. split; [exact I|]. intros t [E|[E|[]]]; injection E as <-; discriminate. Qed.
Lemma unheard : ready (at_a [talking (Some (str "12345678")) false []]).
Proof. split; [cbn; lia|]. split; [cbn; lia|]. split; [exact I|]. intros t [E|[]]; injection E as <-; discriminate. Qed.

(** The hypotheses are met: asked for a password, the client sends its message
    twice, with a reason of 60 characters. *)
Example C78_case : let reason := str "Voucher is fine, and its assertion is verified (10 out of 10" in
  ready (at_a w0) /\ plain reason /\ acceptable (at_a w0) true 1 reason /\ hd 0 reason <> 10
  /\ exists q1 r1 q2 r2 s', est_client_brski_send_voucher_status X0 true 1 (Some reason) (at_a w0)
     = ([EConnect (str "a.example") 443 (str "anchors"); ERequest q1; EResponse r1; EConnect (str "a.example") 443 (str "anchors"); ERequest q2; EResponse r2], Ok (EST_ERR_NONE, s')).
Proof.
  intro reason. split; [apply at_a_ready|]. split; [apply lit_plain; reflexivity|]. split; [split; [reflexivity|]; split; [reflexivity|]; split; [now left|cbn; lia]|]. split; [discriminate|].
  assert (H : match est_client_brski_send_voucher_status X0 true 1 (Some reason) (at_a w0) with
    | ([EConnect a 443 b; ERequest _; EResponse _; EConnect a' 443 b'; ERequest _; EResponse _], Ok (EST_ERR_NONE, _)) => beq a (str "a.example") && beq b (str "anchors") && beq a' (str "a.example") && beq b' (str "anchors")
    | _ => false end = true) by (vm_compute; reflexivity).
  destruct (est_client_brski_send_voucher_status _ _ _ _ _) as [evs r]. destruct evs as [|[a p b| |] [|[|q1|] [|[| |r1] [|[a' p' b'| |] [|[|q2|] [|[| |r2] [|]]]]]]]; try discriminate; try (destruct p; try discriminate; repeat match goal with p : positive |- _ => destruct p; try discriminate end; fail).
  all: repeat match type of H with match ?p with _ => _ end = _ => destruct p; try discriminate end.
  all: repeat (apply andb_prop in H as [H ?]); repeat match goal with B : beq _ _ = true |- _ => apply beq_eq in B end; subst; eauto 10.
Qed.
Print Assumptions C78_case.
Lemma sent_once : forall (m : M est_error) s, match m s with ([EConnect _ _ _; ERequest _], Ok (EST_ERR_SSL_WRITE, _)) => true | _ => false end = true -> exists q evs r, m s = (evs, r) /\ In (ERequest q) evs.
Proof.
  intros m s H. destruct (m s) as [evs r]. destruct evs as [|[] [|[|q|] [|]]]; try discriminate. exists q. eexists _, _. split; [reflexivity|]. right. now left.
Qed.

(** C78, full statement: the registrar reads the status and the reason given,
    whatever the reason.  It fails: quotation marks are not escaped, so a reason
    can end its string and bring its own members.  Here a failure is reported,
    and a reader that takes the last of two members sees success. *)
Theorem C78_refuted : exists X s reason evs r q body ms, ready s /\ acceptable s true 2 reason /\ Forall (fun c => 32 <= c <= 126) reason
  /\ est_client_brski_send_voucher_status X true 2 (Some reason) s = (evs, r) /\ In (ERequest q) evs
  /\ posts (at_path s (str "voucher_status")) body q /\ object ms body /\ last_member (str "Status") ms (Truth true)
  /\ ~ object [(str "version", Text (str "1")); (str "Status", Truth false); (str "Reason", Text reason)] body.
Proof.
  pose (reason := str "no"",""Status"":true,""x"":""y"). pose (s := at_a [talking (Some (str "12345678")) false []]).
  pose (ms := [(str "version", Text (str "1")); (str "Status", Truth false); (str "Reason", Text (str "no")); (str "Status", Truth true); (str "x", Text (str "y"))]).
  destruct (sent_once (est_client_brski_send_voucher_status X0 true 2 (Some reason)) s) as (q & evs & r & H & I); [vm_compute; reflexivity|].
  assert (O : object ms (voucher_message (str "false") reason)).
  { exists ((CRLF ++ [34] ++ str "version" ++ [34] ++ [58] ++ ([34] ++ str "1" ++ [34]) ++ []) ++ [44] ++ (CRLF ++ [34] ++ str "Status" ++ [34] ++ [58] ++ str "false" ++ []) ++ [44] ++ (CRLF ++ [34] ++ str "Reason" ++ [34] ++ [58] ++ ([34] ++ str "no" ++ [34]) ++ [])
      ++ [44] ++ ([] ++ [34] ++ str "Status" ++ [34] ++ [58] ++ str "true" ++ []) ++ [44] ++ ([] ++ [34] ++ str "x" ++ [34] ++ [58] ++ ([34] ++ str "y" ++ [34]) ++ CRLF)).
    split; [reflexivity|]. constructor; [|constructor; [|constructor; [|constructor; [|constructor]]]]; apply member_of; try (apply lit_spaces; reflexivity); try (apply lit_plain; reflexivity); try (apply string_value, lit_plain; reflexivity); constructor. }
  exists X0, s, reason, evs, r, q, (voucher_message (str "false") reason), ms.
  split; [exact unheard|]. split; [split; [reflexivity|]; split; [reflexivity|]; split; [now right|cbn; lia]|].
  split; [rewrite Forall_forall; intros x J; cbn in J; repeat (destruct J as [<-|J]; [lia|]); contradiction|].
  split; [exact H|]. split; [exact I|]. split.
  - destruct (voucher_run X0 (s_c s) (s_env s) true 2 (Some reason)) as [(r0 & st & E & Es & L & _ & Hd)|(G & _)].
    + intros r0 J. injection J as <-. intro J. cbn in J. intuition discriminate.
    + injection E as <-. injection Es as <-. change {| s_c := s_c s; s_env := s_env s |} with s in Hd. rewrite H in Hd. symmetry in Hd. destruct unheard as (F1 & F2 & F3 & R).
      apply deliver_run in Hd as (Q & _); [exact (Q q I)|repeat split; tauto|exact R|vm_compute; discriminate].
    + elim G. split; [reflexivity|]. split; [reflexivity|]. split; [now right|]. exists reason. split; [reflexivity|]. split; [discriminate|cbn; lia].
  - split; [exact O|]. split.
    + exists (firstn 3 ms), (skipn 4 ms). split; [reflexivity|]. repeat constructor; discriminate.
    + intro C. pose proof (object_fun _ _ _ O C) as E. discriminate.
Qed.
Print Assumptions C78_refuted.

(** A key identifier that contains a zero octet is cut there: of these 20
    octets, the size of a SHA-1 hash, the registrar gets three. *)
Theorem C78_identifier_refuted : exists X s id rest evs r q body b64, ready s /\ len id = 20 /\ all_bytes id /\ hd 0 id <> 10
  /\ est_client_brski_send_enroll_status X true 1 (Some (str "enrolled")) (Some (id ++ 0 :: rest)) s = (evs, r) /\ In (ERequest q) evs
  /\ posts (at_path s (str "enrollstatus")) body q /\ b64_decode b64 = Some (firstn 3 id)
  /\ object [(str "version", Text (str "1")); (str "Status", Truth true); (str "Reason", Text (str "enrolled")); (str "SubjectKeyIdentifier", Text b64)] body.
Proof.
  pose (id := [31; 128; 7; 0; 1; 2; 3; 4; 5; 6; 7; 8; 9; 10; 11; 12; 13; 14; 15; 16]). pose (s := at_a [talking (Some (str "12345678")) false []]).
  destruct (sent_once (est_client_brski_send_enroll_status X0 true 1 (Some (str "enrolled")) (Some (id ++ [0]))) s) as (q & evs & r & H & I); [vm_compute; reflexivity|].
  assert (P : plain (str "enrolled")) by (apply lit_plain; reflexivity). assert (B : all_bytes (firstn 3 id)) by (repeat constructor; unfold is_byte; lia).
  assert (N : no_nul (firstn 3 id)) by (intro J; cbn in J; lia).
  destruct (C78_enroll_partial X0 s 1 (str "enrolled") (firstn 3 id) (skipn 4 id ++ [0]) evs r q unheard P B N H I) as (body & b64 & K1 & K2 & K3).
  exists X0, s, id, [], evs, r, q, body, b64. split; [exact unheard|]. split; [reflexivity|]. split; [repeat constructor; unfold is_byte; lia|]. split; [discriminate|]. auto 10.
Qed.
Print Assumptions C78_identifier_refuted.

(** No reason is accepted with success, and then read through a null pointer. *)
Theorem C78_null_refuted : exists X s, ready s /\ c_init (s_c s) = true /\ est_client_brski_send_enroll_status X true 1 None (Some (str "identifier" ++ [0])) s = ([], UB).
Proof. exists X0, (at_a [talking (Some (str "12345678")) false []]). split; [exact unheard|]. split; reflexivity. Qed.
Print Assumptions C78_null_refuted.

(** When no random numbers can be had for Digest authentication, the message is
    sent without a request line or any header. *)
Theorem C78_headless_refuted : exists X s evs r body, c_init (s_c s) = true /\ k_mode (c_http (s_c s)) = AUTH_DIGEST
  /\ est_client_brski_send_voucher_status X true 1 (Some (str "fine")) s = (evs, r) /\ In (ERequest (CRLF ++ body ++ CRLF)) evs
  /\ object [(str "version", Text (str "1")); (str "Status", Truth true); (str "Reason", Text (str "fine"))] body.
Proof.
  pose (c := put_http (set_mode AUTH_DIGEST (c_http (s_c (at_a [])))) (s_c (at_a []))).
  exists X0, {| s_c := c; s_env := [talking None false []] |}.
  assert (H : match est_client_brski_send_voucher_status X0 true 1 (Some (str "fine")) {| s_c := c; s_env := [talking None false []] |} with
    | (_ :: ERequest q :: _, _) => beq q (CRLF ++ voucher_message (str "true") (str "fine") ++ CRLF) | _ => false end = true) by (vm_compute; reflexivity).
  destruct (est_client_brski_send_voucher_status _ _ _ _ _) as [evs r]. destruct evs as [|e0 [|[|q|] rest]]; try discriminate. apply beq_eq in H. subst q.
  eexists _, r, (voucher_message (str "true") (str "fine")). split; [reflexivity|]. split; [reflexivity|]. split; [reflexivity|]. split; [right; left; reflexivity|].
  apply (voucher_object 1); [reflexivity|apply lit_plain; reflexivity].
Qed.
Print Assumptions C78_headless_refuted.
