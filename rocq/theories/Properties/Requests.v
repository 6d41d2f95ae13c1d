(** C85: what the client asks for is what the server is asked.  Read with
    Spec/Requests.v, Spec/Http.v and Spec/Auth.v.  [est_client_send_…_request X
    … t s] is what the client does on the connection [t] in the state [s]; the
    octets it writes are the event [ERequest q].  [process_new_connection S0
    handler ka s0 w] is the server's connection loop, with network reads [w] and
    any request handler. *)
From Coq Require Import String ZArith List Bool Lia.
From Verif Require Import Base Spec.Http Spec.Uri Spec.UriPath Spec.Base64 Spec.Auth Spec.Requests Model.CLib Model.EstErr Model.Uri Model.HttpServer Model.AuthHdr Model.ClientHttp Model.Client
  Proofs.Codec Proofs.AuthHdr Proofs.AuthDigest Proofs.Uri Proofs.Requests Proofs.ServerReply.
Import ListNotations.
Open Scope Z_scope.

(** However the octets [q] are cut into network reads, the server serves exactly
    one request: with this method, URI, list of headers and body. *)
Definition asks (meth uri : bytes) (headers : list (bytes * bytes)) (body q : bytes) : Prop :=
  forall S0 (handler : S0 -> est_req -> S0 * Z) ka s0 w, concat w = q -> exists r,
    er_method r = meth /\ er_uri r = uri /\ er_headers r = headers
    /\ (er_body r = Some (len body, body) \/ er_body r = None /\ body = [])
    /\ process_new_connection S0 handler ka s0 w = Ok ([EvServed r (snd (handler s0 r))], fst (handler s0 r)).

Definition opening (c : client) : list (bytes * bytes) :=
  [(str "User-Agent", str "libest 3.2.0p"); (str "Connection", str "close");
   (str "Host", c_server c ++ str ":" ++ print_int (c_port c)); (str "Accept", str "*/*")].
Definition credentials_header (v : option bytes) : list (bytes * bytes) :=
  match v with Some a => [(str "Authorization", a)] | None => [] end.
(** [v] is the Authorization header called for, with what the client knows. *)
Definition presents (X : ext) (c : client) (t : session) (name : bytes) (v : option bytes) : Prop :=
  authorizes (x_md5 X) (c_user c) (c_pwd c) (k_realm (c_http c)) (k_nonce (c_http c))
    (if c_cb c then t_cred t else no_cred) (t_rnd t) name (k_mode (c_http c)) v.
Definition addresses (c : client) : Prop :=
  plain_server (c_server c) (c_port c) /\ match c_path c with Some p => plain_label p | None => True end.

(** Enrollment, re-enrollment and key generation. *)
Theorem C85_post : forall X op body t s evs r q v,
  In op [OP_SIMPLE_ENROLL; OP_SIMPLE_REENROLL; OP_SERVER_KEYGEN] ->
  addresses (s_c s) -> presents X (s_c s) t (op_name op) v ->
  est_client_send_enroll_request X op body t s = (evs, r) -> In (ERequest q) evs ->
  asks (str "POST") (request_uri (c_path (s_c s)) (op_name op))
    (opening (s_c s)
     ++ [(str "Content-Type", str "application/pkcs10"); (str "Content-Length", print_int (len body))]
     ++ credentials_header v) body q.
Proof.
  intros X op body t s evs r q v P [Hs Hl] A E I S0 handler. destruct (sends_post _ _ _ _ _ _ _ _ E I) as (h & B & N & Q).
  exact (post_served handler X op body (s_c s) t v h q P Hs Hl A B N Q).
Qed.
Print Assumptions C85_post.

Theorem C85_cacerts : forall X t s evs r q, addresses (s_c s) ->
  est_client_send_cacerts_request X t s = (evs, r) -> In (ERequest q) evs ->
  asks (str "GET") (request_uri (c_path (s_c s)) (str "cacerts")) (opening (s_c s)) [] q.
Proof. intros X t s evs r q [Hs Hl] E I S0 handler. exact (cacerts_served handler X t s evs r q Hs Hl E I). Qed.
Print Assumptions C85_cacerts.

Theorem C85_csrattrs : forall X t s evs r q v, addresses (s_c s) -> presents X (s_c s) t (str "csrattrs") v ->
  est_client_send_csrattrs_request X t s = (evs, r) -> In (ERequest q) evs ->
  asks (str "GET") (request_uri (c_path (s_c s)) (str "csrattrs")) (opening (s_c s) ++ credentials_header v) [] q.
Proof. intros X t s evs r q v [Hs Hl] A E I S0 handler. exact (csrattrs_served handler X t s evs r q v Hs Hl A E I). Qed.
Print Assumptions C85_csrattrs.

(** The server's further reading: the operation, and the credentials. *)
Theorem C85_operation : forall brski op, is_brski op = false ->
  est_parse_uri_plain brski (request_uri None (op_name op)) = (EST_ERR_NONE, Some op).
Proof. intros brski op H. apply parse_uri_plain_spec. split; [intro C; congruence|]. reflexivity. Qed.
Print Assumptions C85_operation.
Theorem C85_label : forall p brski label op u after, path_parser p -> is_brski op = false -> plain_label label -> ~ In 35 label ->
  est_parse_operation brski label = None -> p (request_uri (Some label) (op_name op)) = Some u ->
  est_parse_uri_full p brski (request_uri (Some label) (op_name op) ++ 0 :: after) = Ok (EST_ERR_NONE, OpSet (Some op), Some label).
Proof.
  intros p brski label op u after Hp H L N35 N Hu.
  assert (E : request_uri (Some label) (op_name op) = str "/.well-known/est/" ++ label ++ 47 :: op_name op) by (unfold request_uri; cbn [Datatypes.app]; rewrite <- app_assoc; reflexivity).
  destruct L as ((Ne & T) & Ll & N47 & N92 & N37 & N63 & _). rewrite E in *.
  rewrite (uri_label p brski label 47 (op_name op) u after Hp); try assumption.
  - rewrite N. replace (est_parse_operation brski (op_name op)) with (Some op); [reflexivity|]. symmetry. apply parse_operation_spec; [destruct op; discriminate|]. split; [intro C; congruence|reflexivity].
  - assert (Z0 : ~ In 0 label) by (intro I; rewrite Forall_forall in T; specialize (T _ I); unfold token_byte in T; lia).
    intro I. rewrite in_app_iff in I. destruct I as [I|[I|I]]; [exact (Z0 I)|discriminate I|]. destruct op; try discriminate H; cbn in I; intuition discriminate.
  - repeat split; assumption.
  - now left.
Qed.
Print Assumptions C85_label.

(** The Authorization header among them, and what it gives: user name and
    password, or the token, the client was given. *)
Theorem C85_header : forall c (body : bytes) v,
  get_header (opening c ++ [(str "Content-Type", str "application/pkcs10"); (str "Content-Length", print_int (len body))] ++ credentials_header v) (str "Authorization") = v
  /\ get_header (opening c ++ credentials_header v) (str "Authorization") = v
  /\ get_header (opening c ++ [(str "Content-Type", str "application/pkcs10"); (str "Content-Length", print_int (len body))] ++ credentials_header v) (str "Content-Type") = Some (str "application/pkcs10").
Proof. intros c body [a|]; repeat split; reflexivity. Qed.
Print Assumptions C85_header.

Theorem C85_login : forall bio X op body t s evs r q user pwd uid, b64_bio bio ->
  In op [OP_SIMPLE_ENROLL; OP_SIMPLE_REENROLL; OP_SERVER_KEYGEN] -> addresses (s_c s) ->
  k_mode (c_http (s_c s)) = AUTH_BASIC -> uses (c_user (s_c s)) (c_pwd (s_c s)) (if c_cb (s_c s) then t_cred t else no_cred) user pwd ->
  c_str_max 255 user -> c_str_max 255 pwd -> user <> [] -> ~ In 58 user ->
  est_client_send_enroll_request X op body t s = (evs, r) -> In (ERequest q) evs ->
  forall S0 (handler : S0 -> est_req -> S0 * Z) ka s0 w, concat w = q -> exists rq st s1,
    process_new_connection S0 handler ka s0 w = Ok ([EvServed rq st], s1)
    /\ er_uri rq = request_uri (c_path (s_c s)) (op_name op)
    /\ (er_body rq = Some (len body, body) \/ er_body rq = None /\ body = [])
    /\ exists a uid', mg_parse_auth_header bio AUTH_BASIC (get_header (er_headers rq) (str "Authorization")) est_create_ah uid = Ok (HDR_GOOD, a, uid')
       /\ ah_user a = Some user /\ ah_pwd a = Some pwd.
Proof.
  intros bio X op body t s evs r q user pwd uid Hb P A M U Lu Lp Nu N58 E I S0 handler ka s0 w W.
  assert (Pr : presents X (s_c s) t (op_name op) (Some (basic_value user pwd))) by (unfold presents; rewrite M; now constructor).
  destruct (C85_post X op body t s evs r q _ P A Pr E I S0 handler ka s0 w W) as (rq & R1 & R2 & R3 & R4 & R5).
  exists rq, (snd (handler s0 rq)), (fst (handler s0 rq)). split; [exact R5|]. split; [exact R2|]. split; [exact R4|].
  rewrite R3, (proj1 (C85_header (s_c s) body _)). eexists _, _. split; [apply basic_header; assumption|]. split; reflexivity.
Qed.
Print Assumptions C85_login.

(** Alice asks a.example for a certificate and a key, with a label; the server
    has asked for a user name and password. *)
Definition X1 : ext := {|
  x_pton4 := fun _ => None; x_pton6 := fun _ => None; x_md5 := fun _ => repeat 7 16; x_bio := fun _ _ _ => []; x_fips := false; x_junk := fun _ => 0;
  x_uri := fun _ => None; x_brski := false; x_G := fun _ => None;
  x_make_csr := fun _ _ _ => (EST_ERR_NONE, []); x_sign_csr := fun _ _ _ => (EST_ERR_NONE, []); x_csr_of_cert := fun _ _ => (EST_ERR_NONE, None);
  x_key_matches := fun _ _ => false; x_p7_certs := fun _ => (EST_ERR_NONE, []); x_self_issued := fun _ => true; x_verify := fun _ _ _ => 1; x_remove_crls := fun b => (EST_ERR_NONE, b);
  x_to_pem := fun b => Some b; x_load_certs := fun _ => EST_ERR_NONE |}.
Definition alices (m : auth_mode) : st :=
  {| s_c := put_path (Some (str "lab.1")) (put_server (str "a.example") 443 (put_user (str "alice") (put_pwd (str "secret")
            (let c := est_client_init [] in put_http (set_realm (str "r") (set_nonce (str "n") (set_mode m (c_http c)))) c))));
     s_env := [] |}.
Definition line : session :=
  {| t_cert := None; t_srp := false; t_own := []; t_peer := []; t_reused := false; t_tls13 := false;
     t_rnd := Some (str "12345678"); t_cred := no_cred; t_write := false; t_reads := [] |}.
Lemma alices_addresses : forall m, addresses (s_c (alices m)).
Proof.
  intro m. split; [split; [cbn; repeat (constructor; [lia|]); constructor|split; [vm_compute; discriminate|cbn; lia]]|].
  cbn [s_c alices c_path put_path]. split; [split; [discriminate|cbn; unfold token_byte; repeat (constructor; [lia|]); constructor]|].
  split; [vm_compute; discriminate|]. do 4 (split; [cbn; intuition discriminate|]). intros [r E]. discriminate E.
Qed.
Lemma alice_known : c_str_max 255 (str "alice") /\ c_str_max 255 (str "secret").
Proof.
  split; (split; [split; [repeat constructor; unfold is_byte; cbn; lia|intro H; cbn in H; intuition discriminate]|vm_compute; discriminate]).
Qed.
Example C85_case : exists evs r q,
  est_client_send_enroll_request X1 OP_SERVER_KEYGEN (str "CSR") line (alices AUTH_BASIC) = (evs, r) /\ In (ERequest q) evs
  /\ addresses (s_c (alices AUTH_BASIC)) /\ presents X1 (s_c (alices AUTH_BASIC)) line (str "serverkeygen") (Some (str "Basic YWxpY2U6c2VjcmV0"))
  /\ request_uri (c_path (s_c (alices AUTH_BASIC))) (op_name OP_SERVER_KEYGEN) = str "/.well-known/est/lab.1/serverkeygen"
  /\ uses (c_user (s_c (alices AUTH_BASIC))) (c_pwd (s_c (alices AUTH_BASIC))) no_cred (str "alice") (str "secret").
Proof.
  assert (U : uses (str "alice") (str "secret") no_cred (str "alice") (str "secret")) by (left; repeat split; intros [E _]; discriminate E).
  eexists _, _, _. split; [vm_compute; reflexivity|]. split; [left; reflexivity|]. split; [apply alices_addresses|]. split; [|split; [reflexivity|exact U]].
  replace (str "Basic YWxpY2U6c2VjcmV0") with (basic_value (str "alice") (str "secret")) by (vm_compute; reflexivity).
  apply auth_basic; [exact U|apply alice_known|apply alice_known].
Qed.
(** The same with a challenge for Digest authentication, and the list of CSR
    attributes. *)
Example C85_digest_case : (exists v, presents X1 (s_c (alices AUTH_DIGEST)) line (str "csrattrs") (Some v))
  /\ exists evs r q, est_client_send_csrattrs_request X1 line (alices AUTH_DIGEST) = (evs, r) /\ In (ERequest q) evs.
Proof.
  split.
  - assert (U : uses (str "alice") (str "secret") no_cred (str "alice") (str "secret")) by (left; repeat split; intros [E _]; discriminate E).
    assert (R : all_bytes (str "12345678")) by (repeat constructor; unfold is_byte; cbn; lia).
    assert (M : forall x : bytes, all_bytes ((fun _ : bytes => repeat 7 16) x)) by (intro x; apply Forall_forall; intros y I; apply repeat_spec in I; subst y; unfold is_byte; lia).
    assert (P : forall s, forallb (fun c => (32 <=? c) && (c <=? 126)) s = true -> printable_text s) by exact printable_lit.
    exact (ex_intro _ _ (auth_digest (x_md5 X1) (str "alice") (str "secret") (str "r") (str "n") no_cred (Some (str "12345678")) (str "csrattrs") (str "alice") (str "secret") (str "12345678") U (P (str "alice") eq_refl) ltac:(vm_compute; discriminate) ltac:(vm_compute; discriminate)
      (P (str "r") eq_refl) ltac:(vm_compute; discriminate) (P (str "n") eq_refl) ltac:(vm_compute; discriminate) eq_refl eq_refl R (fun _ => eq_refl) M)).
  - eexists _, _, _. split; [vm_compute; reflexivity|]. left. reflexivity.
Qed.
Example C85_cacerts_case : exists evs r q, est_client_send_cacerts_request X1 line (alices AUTH_NONE) = (evs, r) /\ In (ERequest q) evs.
Proof. eexists _, _, _. split; [vm_compute; reflexivity|]. left. reflexivity. Qed.
