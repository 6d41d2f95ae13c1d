(** C87: what a pledge asks for is what the registrar is asked.  Read with
    Spec/Requests.v, Spec/Http.v and Spec/Auth.v; [asks], [addresses],
    [presents], [opening] and [credentials_header] are those of
    Properties/Requests.v (C85).  What the body says: C78, C80; what the
    registrar answers: C83. *)
From Coq Require Import String ZArith List Bool Lia.
From Verif Require Import Base Spec.Http Spec.Uri Spec.UriPath Spec.Base64 Spec.Auth Spec.Requests Model.CLib Model.EstErr Model.Uri Model.HttpServer Model.AuthHdr Model.ClientHttp Model.Client Model.Status Model.VoucherReq
  Proofs.Uri Proofs.Requests Proofs.BrskiRequests Properties.Requests.
Import ListNotations.
Open Scope Z_scope.

(** A voucher request, signed or not. *)
Theorem C87_voucher : forall X sign req t s evs r q v,
  addresses (s_c s) -> presents X (s_c s) t (str "requestvoucher") v ->
  est_client_brski_send_voucher_request X sign req t s = (evs, r) -> In (ERequest q) evs ->
  asks (str "POST") (request_uri (c_path (s_c s)) (str "requestvoucher"))
    (opening (s_c s)
     ++ [(str "Content-Type", if sign then str "application/pkcs7-mime; smime-type=voucher-request" else str "application/json"); (str "Content-Length", print_int (len req))]
     ++ credentials_header v) req q.
Proof.
  intros X sign req t s evs r q v [Hs Hl] A E I S0 handler. destruct (sends_voucher_request _ _ _ _ _ _ _ _ E I) as (h & B & Q).
  apply (brski_served handler X (str "requestvoucher") (if sign then str "application/pkcs7-mime; smime-type=voucher-request" else str "application/json") req (s_c s) t v h q); try assumption.
  - exists OP_BRSKI_REQ_VOUCHER. reflexivity.
  - destruct sign; [right|left]; reflexivity.
  - rewrite <- B. unfold est_client_brski_build_voucherreq_header, brski_start. destruct sign; reflexivity.
Qed.
Print Assumptions C87_voucher.

(** A status message.  Its Digest credentials name the resource of voucher
    requests (see below). *)
Theorem C87_status : forall X op status t s evs r q v,
  op = OP_BRSKI_VOUCHER_STATUS \/ op = OP_BRSKI_ENROLL_STATUS ->
  addresses (s_c s) -> presents X (s_c s) t (str "requestvoucher") v ->
  send_status X op status t s = (evs, r) -> In (ERequest q) evs ->
  asks (str "POST") (request_uri (c_path (s_c s)) (op_name op))
    (opening (s_c s) ++ [(str "Content-Type", str "application/json"); (str "Content-Length", print_int (len status))] ++ credentials_header v) status q.
Proof.
  intros X op status t s evs r q v O [Hs Hl] A E I S0 handler. destruct (sends_status _ _ _ _ _ _ _ _ E I) as (h & B & Q).
  apply (brski_served handler X (op_name op) (str "application/json") status (s_c s) t v h q); try assumption.
  - exists op. reflexivity.
  - now left.
  - rewrite <- B. unfold est_client_brski_build_status_header, brski_start. destruct O as [-> | ->]; reflexivity.
Qed.
Print Assumptions C87_status.

(** The operation a registrar finds in the URI, and one of a library built
    without BRSKI. *)
Theorem C87_operation : forall op, is_brski op = true ->
  est_parse_uri_plain true (request_uri None (op_name op)) = (EST_ERR_NONE, Some op)
  /\ forall e o, est_parse_uri_plain false (request_uri None (op_name op)) = (e, o) -> e <> EST_ERR_NONE.
Proof.
  intros op H. split.
  - apply parse_uri_plain_spec. split; [intros _; reflexivity|reflexivity].
  - intros e o E. destruct op; try discriminate H; vm_compute in E; injection E as <- _; discriminate.
Qed.
Print Assumptions C87_operation.
Theorem C87_label : forall p label op u after, path_parser p -> is_brski op = true -> plain_label label -> ~ In 35 label ->
  est_parse_operation true label = None -> p (request_uri (Some label) (op_name op)) = Some u ->
  est_parse_uri_full p true (request_uri (Some label) (op_name op) ++ 0 :: after) = Ok (EST_ERR_NONE, OpSet (Some op), Some label).
Proof.
  intros p label op u after Hp H L N35 N Hu.
  assert (E : request_uri (Some label) (op_name op) = str "/.well-known/est/" ++ label ++ 47 :: op_name op) by (unfold request_uri; cbn [Datatypes.app]; rewrite <- app_assoc; reflexivity).
  destruct L as ((Ne & T) & Ll & N47 & N92 & N37 & N63 & _). rewrite E in *.
  rewrite (uri_label p true label 47 (op_name op) u after Hp); try assumption.
  - rewrite N. replace (est_parse_operation true (op_name op)) with (Some op); [reflexivity|]. symmetry. apply parse_operation_spec; [destruct op; discriminate|]. split; [intros _; reflexivity|reflexivity].
  - assert (Z0 : ~ In 0 label) by (intro I; rewrite Forall_forall in T; specialize (T _ I); unfold token_byte in T; lia).
    intro I. rewrite in_app_iff in I. destruct I as [I|[I|I]]; [exact (Z0 I)|discriminate I|]. destruct op; try discriminate H; cbn in I; intuition discriminate.
  - repeat split; assumption.
  - now left.
Qed.
Print Assumptions C87_label.
Theorem C87_header : forall c ct (body : bytes) v,
  get_header (opening c ++ [(str "Content-Type", ct); (str "Content-Length", print_int (len body))] ++ credentials_header v) (str "Content-Type") = Some ct
  /\ get_header (opening c ++ [(str "Content-Type", ct); (str "Content-Length", print_int (len body))] ++ credentials_header v) (str "Authorization") = v.
Proof. intros c ct body [a|]; split; reflexivity. Qed.
Print Assumptions C87_header.

(** Digest credentials should name the resource of the request they are sent
    with (RFC 2617, 3.2.2.5).  Those of a status message name another. *)
Theorem C87_digest_refuted : forall X status t s evs r q v, k_mode (c_http (s_c s)) = AUTH_DIGEST ->
  addresses (s_c s) -> presents X (s_c s) t (str "requestvoucher") v ->
  send_status X OP_BRSKI_VOUCHER_STATUS status t s = (evs, r) -> In (ERequest q) evs ->
  forall S0 (handler : S0 -> est_req -> S0 * Z) ka s0 w, concat w = q -> exists rq st s1 a b,
    process_new_connection S0 handler ka s0 w = Ok ([EvServed rq st], s1)
    /\ er_uri rq = request_uri (c_path (s_c s)) (str "voucher_status")
    /\ get_header (er_headers rq) (str "Authorization") = Some (a ++ str "uri=" ++ [34] ++ str "/.well-known/est/requestvoucher" ++ [34] ++ b).
Proof.
  intros X status t s evs r q v M Ad P E I S0 handler ka s0 w W.
  destruct (C87_status X OP_BRSKI_VOUCHER_STATUS status t s evs r q v (or_introl eq_refl) Ad P E I S0 handler ka s0 w W) as (rq & R1 & R2 & R3 & R4 & R5).
  assert (V : exists a b, v = Some (a ++ str "uri=" ++ [34] ++ str "/.well-known/est/requestvoucher" ++ [34] ++ b)).
  { unfold presents in P. rewrite M in P. inversion P as [| | |user pwd random U Pu Lu Lp Pr Lr Pn Ln R R8 Rb H16 Hb uri]; subst. unfold digest_rest. fold uri.
    exists (str "Digest " ++ str "username=" ++ quote user ++ str ", realm=" ++ quote (k_realm (c_http (s_c s))) ++ str ", nonce=" ++ quote (k_nonce (c_http (s_c s))) ++ str ", ").
    eexists. f_equal. rewrite <- !app_assoc. do 7 f_equal. change (str ", uri=") with (str ", " ++ str "uri="). unfold quote at 1. rewrite <- !app_assoc. reflexivity. }
  destruct V as (a & b & V). exists rq, (snd (handler s0 rq)), (fst (handler s0 rq)), a, b. split; [exact R5|]. split; [exact R2|].
  rewrite R3, (proj2 (C87_header (s_c s) (str "application/json") status v)). exact V.
Qed.
Print Assumptions C87_digest_refuted.

(** Alice's pledge reports to a.example, which has asked for Digest
    authentication. *)
Example C87_case : exists evs r q evs' r' q' v, presents X1 (s_c (alices AUTH_DIGEST)) line (str "requestvoucher") (Some v)
  /\ send_status X1 OP_BRSKI_VOUCHER_STATUS (str "{}") line (alices AUTH_DIGEST) = (evs, r) /\ In (ERequest q) evs
  /\ est_client_brski_send_voucher_request X1 true (str "CMS") line (alices AUTH_DIGEST) = (evs', r') /\ In (ERequest q') evs'.
Proof.
  assert (U : uses (str "alice") (str "secret") no_cred (str "alice") (str "secret")) by (left; repeat split; intros [E _]; discriminate E).
  assert (R : all_bytes (str "12345678")) by (repeat constructor; unfold is_byte; cbn; lia).
  assert (M : forall x : bytes, all_bytes ((fun _ : bytes => repeat 7 16) x)) by (intro x; apply Forall_forall; intros y I; apply repeat_spec in I; subst y; unfold is_byte; lia).
  assert (P : forall s, forallb (fun c => (32 <=? c) && (c <=? 126)) s = true -> printable_text s) by exact printable_lit.
  pose proof (auth_digest (x_md5 X1) (str "alice") (str "secret") (str "r") (str "n") no_cred (Some (str "12345678")) (str "requestvoucher") (str "alice") (str "secret") (str "12345678") U (P (str "alice") eq_refl) ltac:(vm_compute; discriminate) ltac:(vm_compute; discriminate)
      (P (str "r") eq_refl) ltac:(vm_compute; discriminate) (P (str "n") eq_refl) ltac:(vm_compute; discriminate) eq_refl eq_refl R (fun _ => eq_refl) M) as A. cbv zeta in A.
  eexists _, _, _, _, _, _, _. split; [exact A|]. split; [vm_compute; reflexivity|]. split; [left; reflexivity|]. split; [vm_compute; reflexivity|]. left. reflexivity.
Qed.
