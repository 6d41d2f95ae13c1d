(** C80: voucher requests.  Read with Spec/VoucherReq.v ([wraps],
    [request_members], [sent_on]) and Spec/Status.v ([posts], [plain]),
    Spec/Base64.v.

    A state is a client and what will happen on its connections.  [server_p7]
    is the text OpenSSL gives for the certificate of the server of a
    connection; [der] are the octets that text stands for. *)
From Coq Require Import String ZArith List Bool Lia ZifyBool ZifyNat.
From Verif Require Import Base Spec.Base64 Spec.Http Spec.Client Spec.Multipart Spec.ClientCalls Model.CLib Model.Codec Model.EstErr Model.HttpServer Model.Uri Model.AuthHdr Model.ClientHttp Model.Host Model.Client Model.Status Model.VoucherReq
  Proofs.ClientHttp Proofs.ClientCalls Proofs.ClientRender Proofs.ServerReply Proofs.Codec Proofs.Status Proofs.VoucherReq Spec.Status Spec.VoucherReq Properties.Status.
Import ListNotations.
Open Scope Z_scope.

(** OpenSSL's base64 filter: the encoding in lines of 64 characters. *)
Definition openssl_text (server_p7 : session -> option bytes) (der : session -> bytes) (s : st) : Prop :=
  forall t, In (Tls t) (s_env s) -> server_p7 t = Some (b64_wrap (b64_encode (der t))) /\ all_bytes (der t) /\ der t <> [] /\ len (b64_wrap (b64_encode (der t))) <= 8192.

(** Every request is a POST to requestvoucher whose body, once its line feeds
    are taken out, is the JSON text of a voucher request: the fresh nonce in
    hexadecimal, the time, and the certificate of the server of the connection
    the request is sent on, whole.  Partial: line feeds have to be taken out,
    certificates of at most 8192 characters of text, and the second server's
    certificate is not shorter than the first's. *)
Theorem C80_partial : forall X server_p7 der s nonce time evs r t q, ready s -> openssl_text server_p7 der s ->
  all_bytes nonce -> len nonce = 16 -> plain time -> len time <= 25 ->
  (forall t1 t2 w, s_env s = Tls t1 :: Tls t2 :: w -> len (der t1) <= len (der t2)) ->
  ask_for_voucher X server_p7 false (Some nonce) (Some time) s = (evs, r) -> In (t, q) (sent_on None (s_env s) evs) ->
  exists t', t = Some t' /\ In (Tls t') (s_env s)
  /\ exists body b64, posts (at_path s (str "requestvoucher")) body q /\ b64_decode b64 = Some (der t')
    /\ wraps (str "ietf-voucher-request:voucher") (request_members (hex_string nonce) time b64) (no_lf body).
Proof.
  intros X server_p7 der [c w] nonce time evs r o q (F1 & F2 & F3 & R) O Bn Ln Pt Lt Two H I. cbn [s_c s_env] in *.
  destruct (voucher_requests X server_p7 der c w nonce time evs r) with (o := o) (q := q) as (t & -> & It & P); auto.
  - repeat split; tauto.
  - intros t J. split; [now apply R|]. now apply O.
  - exists t. split; [reflexivity|]. split; [exact It|]. destruct (O t It) as (_ & B & _ & _). exists (request_text (hex_string nonce) time (cert_text der t)), (b64_encode (der t)).
    split; [exact P|]. split; [now apply b64_decode_encode|].
    replace (b64_encode (der t)) with (no_lf (cert_text der t)) by (apply no_lf_wrap, b64_plain, B).
    apply request_wraps; [now apply hex_plain'|exact Pt|]. unfold cert_text. rewrite no_lf_wrap by apply b64_plain, B. now apply b64_plain.
Qed.
Print Assumptions C80_partial.

(** C80, full statement: the body of every request is a JSON text.  It never is:
    OpenSSL ends the lines of its base64 with line feeds, and they go into the
    JSON string as they are. *)
Theorem C80_refuted : forall X server_p7 der s nonce time evs r t q, ready s -> openssl_text server_p7 der s ->
  all_bytes nonce -> len nonce = 16 -> plain time -> len time <= 25 ->
  (forall t1 t2 w, s_env s = Tls t1 :: Tls t2 :: w -> len (der t1) <= len (der t2)) ->
  ask_for_voucher X server_p7 false (Some nonce) (Some time) s = (evs, r) -> In (t, q) (sent_on None (s_env s) evs) ->
  exists body, posts (at_path s (str "requestvoucher")) body q /\ forall name ms, ~ wraps name ms body.
Proof.
  intros X server_p7 der [c w] nonce time evs r o q (F1 & F2 & F3 & R) O Bn Ln Pt Lt Two H I. cbn [s_c s_env] in *.
  destruct (voucher_requests X server_p7 der c w nonce time evs r) with (o := o) (q := q) as (t & -> & It & P); auto.
  - repeat split; tauto.
  - intros t J. split; [now apply R|]. now apply O.
  - destruct (O t It) as (_ & B & N & _). exists (request_text (hex_string nonce) time (cert_text der t)). split; [exact P|]. intros name ms.
    apply request_not_json; [now apply hex_plain'|exact Pt|]. apply wrap_first; [now apply b64_plain|].
    destruct (der t) as [|x d] eqn:E; [congruence|]. intro C. pose proof (b64_encode_len (x :: d)) as L. rewrite C, len_cons in L. pose proof (len_nonneg _ d). change (len (@nil Z)) with 0 in L. lia.
Qed.
Print Assumptions C80_refuted.

(** ** Cases *)
Definition nonce0 : bytes := [222; 173; 190; 239; 0; 1; 2; 3; 4; 5; 6; 7; 8; 9; 10; 255].
Definition time0 : bytes := str "2018-01-31T12:00:00Z".
Definition peer (cert : bytes) (write : bool) (d : bytes) : session :=
  {| t_cert := Some (Some [DNS (str "a.example")], []); t_srp := false; t_own := []; t_peer := cert; t_reused := false; t_tls13 := false;
     t_rnd := Some (str "12345678"); t_cred := no_cred; t_write := write; t_reads := [Data d; Data []] |}.
Definition p7 (t : session) : option bytes := Some (b64_wrap (b64_encode (t_peer t))).
Definition cert60 : bytes := repeat 201 60.
Definition cert61 : bytes := repeat 17 61.
Definition two (first second : bytes) : st := at_a [Tls (peer first true asking); Tls (peer second true fine)].
Lemma two_ready : forall a b, ready (two a b).
Proof. intros. split; [cbn; lia|]. split; [cbn; lia|]. split; [exact I|]. intros t [E|[E|[]]]; injection E as <-; discriminate. Qed.
Lemma one_ready : forall a b d, ready (at_a [Tls (peer a b d)]).
Proof. intros. split; [cbn; lia|]. split; [cbn; lia|]. split; [exact I|]. intros t [E|[]]; injection E as <-; discriminate. Qed.

(** The hypotheses are met: the first server asks for a password, and the
    request is sent twice, to servers with different certificates. *)
Example C80_case : ready (two cert60 cert61) /\ openssl_text p7 t_peer (two cert60 cert61) /\ all_bytes nonce0 /\ len nonce0 = 16 /\ plain time0 /\ len time0 <= 25
  /\ (forall t1 t2 w, s_env (two cert60 cert61) = Tls t1 :: Tls t2 :: w -> len (t_peer t1) <= len (t_peer t2))
  /\ exists evs r q1 q2, ask_for_voucher X0 p7 false (Some nonce0) (Some time0) (two cert60 cert61) = (evs, r)
     /\ sent_on None (s_env (two cert60 cert61)) evs = [(Some (peer cert60 true asking), q1); (Some (peer cert61 true fine), q2)].
Proof.
  split; [apply two_ready|]. split.
  { intros t [E|[E|[]]]; injection E as <-; (split; [reflexivity|]); (split; [cbn; repeat constructor; unfold is_byte; lia|]); (split; [discriminate|]); vm_compute; discriminate. }
  split; [repeat constructor; unfold is_byte; lia|]. split; [reflexivity|]. split; [apply lit_plain; reflexivity|]. split; [vm_compute; discriminate|]. split; [intros t1 t2 w E; injection E as <- <- _; vm_compute; discriminate|].
  assert (H : match ask_for_voucher X0 p7 false (Some nonce0) (Some time0) (two cert60 cert61) with
    | ([EConnect _ _ _; ERequest _; EResponse _; EConnect _ _ _; ERequest _; EResponse _], _) => true | _ => false end = true) by (vm_compute; reflexivity).
  destruct (ask_for_voucher _ _ _ _ _ _) as [evs r]. destruct evs as [|[] [|[|q1|] [|[] [|[] [|[|q2|] [|[] [|]]]]]]]; try discriminate H.
  eexists _, _, q1, q2. split; reflexivity.
Qed.
Print Assumptions C80_case.

(** ** What goes wrong *)
Lemma posts_lit : forall c name body more, posts (target c name) body (render_head (str "POST") (target c name) (str "HTTP/1.1") (fixed_headers c (print_int (len body)) ++ more) ++ body ++ CRLF).
Proof.
  intros. exists (fixed_headers c (print_int (len body)) ++ more), CRLF, (print_int (len body)). split; [reflexivity|]. split; [reflexivity|]. split; [|split; [|apply print_int_decimal; pose proof (len_nonneg _ body); lia]].
  - apply (first_is (firstn 4 (fixed_headers c (print_int (len body)))) _ _ (skipn 5 (fixed_headers c (print_int (len body))) ++ more)). repeat constructor; discriminate.
  - apply (first_is (firstn 5 (fixed_headers c (print_int (len body)))) _ _ more). repeat constructor; discriminate.
Qed.

(** When the second server's certificate is shorter than the first's, the rest
    of the first's follows it in the second request: the text is no longer the
    certificate of the registrar the request is sent to. *)
Theorem C80_stale_refuted : exists X server_p7 der s evs r t q body b64, ready s /\ openssl_text server_p7 der s
  /\ ask_for_voucher X server_p7 false (Some nonce0) (Some time0) s = (evs, r) /\ In (Some t, q) (sent_on None (s_env s) evs)
  /\ posts (at_path s (str "requestvoucher")) body q
  /\ wraps (str "ietf-voucher-request:voucher") (request_members (hex_string nonce0) time0 b64) (no_lf body) /\ b64_decode b64 <> Some (der t).
Proof.
  pose (s := two cert60 (str "short")). pose (txt := b64_wrap (b64_encode (str "short")) ++ skipn 9 (b64_wrap (b64_encode cert60))).
  pose (body := request_text (hex_string nonce0) time0 txt). pose (auth := [(str "Authorization", str "Basic Og==")]).
  pose (q := render_head (str "POST") (target (s_c s) (str "requestvoucher")) (str "HTTP/1.1") (fixed_headers (s_c s) (print_int (len body)) ++ auth) ++ body ++ CRLF).
  assert (H : match ask_for_voucher X0 p7 false (Some nonce0) (Some time0) s with
    | ([EConnect _ _ _; ERequest _; EResponse _; EConnect _ _ _; ERequest q2; EResponse _], _) => beq q2 q | _ => false end = true) by (vm_compute; reflexivity).
  destruct (ask_for_voucher X0 p7 false (Some nonce0) (Some time0) s) as [evs r] eqn:A. destruct evs as [|[] [|[|q1|] [|[] [|[] [|[|q2|] [|[] [|]]]]]]]; try discriminate H. apply beq_eq in H.
  exists X0, p7, t_peer, s. eexists _, r, (peer (str "short") true fine), q2, body, (no_lf txt). split; [apply two_ready|]. split.
  { intros t [E|[E|[]]]; injection E as <-; (split; [reflexivity|]); (split; [cbn; repeat constructor; unfold is_byte; lia|]); (split; [discriminate|]); vm_compute; discriminate. }
  split; [exact A|]. split; [right; left; reflexivity|]. split; [rewrite H; apply posts_lit|]. split.
  - apply request_wraps; [apply lit_plain; reflexivity|apply lit_plain; reflexivity|apply lit_plain; vm_compute; reflexivity].
  - vm_compute. discriminate.
Qed.
Print Assumptions C80_stale_refuted.

(** A certificate whose text is over 8192 characters is left out, and the
    request is sent all the same: it names no registrar. *)
Theorem C80_large_refuted : exists X server_p7 s evs r t q body, ready s /\ (exists b, server_p7 t = Some b /\ 8192 < len b)
  /\ ask_for_voucher X server_p7 false (Some nonce0) (Some time0) s = (evs, r) /\ In (Some t, q) (sent_on None (s_env s) evs)
  /\ posts (at_path s (str "requestvoucher")) body q
  /\ wraps (str "ietf-voucher-request:voucher") (request_members (hex_string nonce0) time0 []) (no_lf body).
Proof.
  pose (s := at_a [Tls (peer (repeat 65 (Z.to_nat 8193)) false [])]).
  pose (body := request_text (hex_string nonce0) time0 []).
  pose (q := render_head (str "POST") (target (s_c s) (str "requestvoucher")) (str "HTTP/1.1") (fixed_headers (s_c s) (print_int (len body)) ++ []) ++ body ++ CRLF).
  assert (H : match ask_for_voucher X0 (fun t => Some (t_peer t)) false (Some nonce0) (Some time0) s with
    | ([EConnect _ _ _; ERequest q2], _) => beq q2 q | _ => false end = true) by (vm_compute; reflexivity).
  destruct (ask_for_voucher X0 (fun t => Some (t_peer t)) false (Some nonce0) (Some time0) s) as [evs r] eqn:A. destruct evs as [|[] [|[|q1|] [|]]]; try discriminate H. apply beq_eq in H.
  exists X0, (fun t => Some (t_peer t)), s. eexists _, r, (peer (repeat 65 (Z.to_nat 8193)) false []), q1, body. split.
  { apply one_ready. }
  split. { eexists. split; [reflexivity|]. cbn [t_peer peer]. rewrite len_repeat. lia. }
  split; [exact A|]. split; [left; reflexivity|]. split; [rewrite H; apply posts_lit|].
  apply (request_wraps (hex_string nonce0) time0 []); apply lit_plain; reflexivity.
Qed.
Print Assumptions C80_large_refuted.

(** Asked to sign, the client sends the same unsigned text and labels it as
    signed. *)
Theorem C80_signed_refuted : exists X server_p7 s evs r q hs body rest t, ready s
  /\ ask_for_voucher X server_p7 true (Some nonce0) (Some time0) s = (evs, r) /\ In (ERequest q) evs
  /\ q = render_head (str "POST") (at_path s (str "requestvoucher")) (str "HTTP/1.1") hs ++ body ++ rest
  /\ first_header hs (str "Content-Type") (str "application/pkcs7-mime; smime-type=voucher-request") /\ server_p7 t = Some (b64_wrap (b64_encode (t_peer t)))
  /\ wraps (str "ietf-voucher-request:voucher") (request_members (hex_string nonce0) time0 (b64_encode (t_peer t))) (no_lf body).
Proof.
  pose (t := peer cert60 false []). pose (s := at_a [Tls t]).
  pose (body := request_text (hex_string nonce0) time0 (b64_wrap (b64_encode cert60))).
  pose (hs := firstn 4 (fixed_headers (s_c s) (print_int (len body))) ++ [(str "Content-Type", str "application/pkcs7-mime; smime-type=voucher-request"); (str "Content-Length", print_int (len body))]).
  assert (H : match ask_for_voucher X0 p7 true (Some nonce0) (Some time0) s with
    | ([EConnect _ _ _; ERequest q2], _) => beq q2 (render_head (str "POST") (at_path s (str "requestvoucher")) (str "HTTP/1.1") hs ++ body ++ CRLF) | _ => false end = true) by (vm_compute; reflexivity).
  destruct (ask_for_voucher X0 p7 true (Some nonce0) (Some time0) s) as [evs r] eqn:A. destruct evs as [|[] [|[|q1|] [|]]]; try discriminate H. apply beq_eq in H.
  exists X0, p7, s. eexists _, r, q1, hs, body, CRLF, t. split.
  { apply one_ready. }
  split; [exact A|]. split; [right; left; reflexivity|]. split; [exact H|]. split; [apply first_is; repeat constructor; discriminate|]. split; [reflexivity|].
  change (b64_encode (t_peer t)) with (b64_encode cert60). replace (b64_encode cert60) with (no_lf (b64_wrap (b64_encode cert60))) by reflexivity.
  apply request_wraps; apply lit_plain; vm_compute; reflexivity.
Qed.
Print Assumptions C80_signed_refuted.
