(** C12 (client side), C30, C31, C36: the client's handling of HTTP responses.
    Read with Spec/Client.v, Spec/Http.v and Spec/Server.v.

    [est_io_get_response evs op c] is what one exchange gives: the error code,
    what the caller receives ([Untouched]: its buffer pointer and length are not
    written; [Deliver None 0]: no body, length 0) and the context afterwards.
    Server-side key generation splits its body further (C37); its theorems here
    are about the undivided body. *)
From Coq Require Import String ZArith List Bool Lia ZifyBool ZifyNat.
From Verif Require Import Base Spec.Http Spec.Server Spec.Client Model.CLib Model.EstErr Model.HttpServer Model.Uri Model.AuthHdr Model.Server Model.ClientHttp
  Proofs.HttpParse Proofs.ServerReply Proofs.ClientHeaders Proofs.ClientHttp Proofs.ClientRender Proofs.ClientMany Proofs.ClientServer.
Import ListNotations.
Open Scope Z_scope.

(** ** C30 *)
(** Whatever the peer sends: a body that is delivered is what followed the
    headers of a "200" response, up to the end; its length is between 1 and
    2000000, and is what the header Content-Length says by C's [atoi]; a header
    Content-Type names the media type of the operation.  With any error, no
    body.  Partial: [atoi] is not exact (see [C30_refuted] and [C30_exact]). *)
Theorem C30_partial : forall evs op c rv v c', est_io_get_response evs op c = Ok (rv, v, c') ->
  (forall b n, v = Deliver (Some b) n ->
     rv = EST_ERR_NONE /\ n = len b /\ 0 < n <= 2000000
     /\ exists d head ct cl, arrives evs d /\ d = head ++ b
        /\ (exists t, d = str "HTTP/1.1 200" ++ t)
        /\ header_line d (str "Content-Type") (reply_type op ++ ct) b
        /\ header_line d (str "Content-Length") cl b /\ atoi cl = n)
  /\ (rv <> EST_ERR_NONE -> v = Untouched \/ v = Deliver None 0).
Proof.
  intros evs op c rv v c' H. split.
  - intros b n ->. rewrite reply_type_eq. eapply delivered_sound; eassumption.
  - eapply error_no_body; eassumption.
Qed.

(** A response as a server writes it (one to sixteen plain headers): the body
    is delivered, in full, exactly if its type is that of the operation and
    Content-Length states its length; otherwise the call fails with no body.
    The gap is between 2^32 and 2^63, see [C30_refuted]. *)
Theorem C30_exact : forall evs d hs body op c, arrives evs d -> response d 200 hs body -> clean_head d body -> plain_headers hs ->
  no_leading_newline body -> len d <= 1999955 -> has_body op ->
  (forall v, typed op hs -> last_header hs (str "Content-Length") v -> decimal v (len body) ->
     est_io_get_response evs op c = Ok (EST_ERR_NONE, Deliver (match body with [] => None | _ => Some body end) (len body), set_status 200 c))
  /\ (~ typed op hs \/ Forall (fun h => fst h <> str "Content-Length") hs
      \/ (exists v n, last_header hs (str "Content-Length") v /\ decimal v n /\ n <> len body /\ (n < 4294967296 \/ 9223372036854775807 < n)) ->
     est_io_get_response evs op c = Ok (EST_ERR_HTTP_UNSUPPORTED, Deliver None 0, set_status 200 c)).
Proof.
  intros evs d hs body op c A R H0 Hp Hb L O. split.
  - intros v T Lh D. exact (delivered evs d hs body op c A R H0 Hp Hb L O v T Lh D).
  - exact (refused evs d hs body op c A R H0 Hp Hb L O).
Qed.

Definition odd_headers : list (bytes * bytes) := [(str "Content-Type", str "application/csrattrs"); (str "Content-Length", str "4294967298")].
Definition odd_response : bytes := str "HTTP/1.1 200 OK" ++ CRLF ++ concat (map render_header odd_headers) ++ CRLF ++ [48; 0].
Lemma odd_ok : response odd_response 200 odd_headers [48; 0] /\ clean_head odd_response [48; 0] /\ plain_headers odd_headers /\ typed OP_CSRATTRS odd_headers
  /\ last_header odd_headers (str "Content-Length") (str "4294967298").
Proof.
  assert (L : forall l, forallb (fun c => negb (existsb (Z.eqb c) [0; 10; 13; 58])) l = true -> Forall (fun c => ~ In c [0; 10; 13; 58]) l).
  { intros l F. rewrite Forall_forall. rewrite forallb_forall in F. intros x I Q. specialize (F x I). cbn in Q, F. lia. }
  split; [|split; [|split; [|split]]].
  - exists (str "200"), (str "OK"). split; [num|]. split; [reflexivity|]. split; [line|]. split.
    + constructor; [split; line|constructor; [split; line|constructor]].
    + unfold odd_response. rewrite <- ?app_assoc. reflexivity.
  - exists (str "HTTP/1.1 200 OK" ++ CRLF ++ concat (map render_header odd_headers) ++ CRLF). split; [unfold odd_response; rewrite <- !app_assoc; reflexivity|].
    intro K. cbv in K. repeat destruct K as [K|K]; congruence.
  - split; [unfold len; cbn; lia|]. repeat constructor; cbn [fst snd]; try discriminate; try (apply L; reflexivity); try (cbn; intuition discriminate).
  - split; [repeat constructor; cbn [fst snd]; intro Q; try discriminate; exists []; reflexivity|]. constructor. reflexivity.
  - exists [(str "Content-Type", str "application/csrattrs")], []. split; [reflexivity|constructor].
Qed.

(** A response that announces 4294967298 octets and carries two is accepted. *)
Theorem C30_refuted : forall c, exists evs d hs body, arrives evs d /\ response d 200 hs body /\ len body = 2
  /\ last_header hs (str "Content-Length") (str "4294967298") /\ decimal (str "4294967298") 4294967298
  /\ est_io_get_response evs OP_CSRATTRS c = Ok (EST_ERR_NONE, Deliver (Some body) 2, set_status 200 c).
Proof.
  intro c. destruct odd_ok as (R & C & P & T & Lh). exists [Data odd_response; Data []], odd_response, odd_headers, [48; 0].
  assert (A : arrives [Data odd_response; Data []] odd_response) by (exists [odd_response], []; split; [reflexivity|]; split; [constructor; [discriminate|constructor]|cbn [concat]; apply app_nil_r]).
  assert (D : decimal (str "4294967298") 4294967298) by num.
  split; [exact A|]. split; [exact R|]. split; [reflexivity|]. split; [exact Lh|]. split; [exact D|].
  refine (delivered_wrap _ _ _ _ _ c A R C P _ _ _ _ 4294967298 T Lh D _ _ _); try reflexivity; try discriminate; try (split; discriminate); unfold len; cbn; lia.
Qed.

(** Too much data, a failed or silent connection and an empty response: an
    error and nothing delivered. *)
Theorem C30_too_big : forall segs rest op c, Forall (fun d => d <> []) segs -> 2000000 < len (concat segs) ->
  est_io_get_response (map Data segs ++ rest) op c = Ok (EST_ERR_READ_BUFFER_TOO_SMALL, Untouched, c).
Proof. exact too_big. Qed.
Theorem C30_broken : forall segs rest op c, Forall (fun d => d <> []) segs -> len (concat segs) < 2000000 ->
  est_io_get_response (map Data segs ++ Failed :: rest) op c = Ok (EST_ERR_SSL_READ, Untouched, c).
Proof. exact broken. Qed.
Theorem C30_no_answer : forall rest op c, est_io_get_response (Data [] :: rest) op c = Ok (EST_ERR_HTTP_NOT_FOUND, Untouched, c).
Proof. exact no_answer. Qed.

Definition good_headers : list (bytes * bytes) := [(str "Content-Type", str "application/csrattrs"); (str "Content-Length", str "2")].
Definition good_response : bytes := str "HTTP/1.1 200 OK" ++ CRLF ++ concat (map render_header good_headers) ++ CRLF ++ [48; 0].
(** The hypotheses of [C30_exact] hold of a response that arrives in two pieces. *)
Example C30_delivers : forall c, est_io_get_response [Data (firstn 30 good_response); Data (skipn 30 good_response); Data []] OP_CSRATTRS c
  = Ok (EST_ERR_NONE, Deliver (Some [48; 0]) 2, set_status 200 c).
Proof.
  intro c. assert (L : forall l, forallb (fun c => negb (existsb (Z.eqb c) [0; 10; 13; 58])) l = true -> Forall (fun c => ~ In c [0; 10; 13; 58]) l).
  { intros l F. rewrite Forall_forall. rewrite forallb_forall in F. intros x I Q. specialize (F x I). cbn in Q, F. lia. }
  refine (proj1 (C30_exact _ good_response good_headers [48; 0] OP_CSRATTRS c _ _ _ _ _ _ _) (str "2") _ _ _).
  - exists [firstn 30 good_response; skipn 30 good_response], []. split; [reflexivity|]. split; [repeat constructor; discriminate|].
    cbn [concat]. rewrite app_nil_r. apply firstn_skipn.
  - exists (str "200"), (str "OK"). split; [num|]. split; [reflexivity|]. split; [line|]. split.
    + constructor; [split; line|constructor; [split; line|constructor]].
    + unfold good_response. rewrite <- ?app_assoc. reflexivity.
  - exists (str "HTTP/1.1 200 OK" ++ CRLF ++ concat (map render_header good_headers) ++ CRLF). split; [unfold good_response; rewrite <- !app_assoc; reflexivity|].
    intro K. cbv in K. repeat destruct K as [K|K]; congruence.
  - split; [unfold len; cbn; lia|]. repeat constructor; cbn [fst snd]; try discriminate; try (apply L; reflexivity); try (cbn; intuition discriminate).
  - split; discriminate.
  - unfold len. cbn. lia.
  - split; discriminate.
  - split; [repeat constructor; cbn [fst snd]; intro Q; try discriminate; exists []; reflexivity|]. constructor. reflexivity.
  - exists [(str "Content-Type", str "application/csrattrs")], []. split; [reflexivity|constructor].
  - num.
Qed.

(** The client reads sixteen headers and takes the rest of the head for the
    body.  A well-formed response with more headers is refused although every
    Content-Length states the length of its body, and a Content-Length that
    counts the remaining header lines has them delivered as the body. *)
Theorem C30_many_refuted : forall evs d hs body op c, arrives evs d -> response d 200 hs body -> clean_head d body -> 16 < len hs -> Forall plain_header hs ->
  len d <= 1999955 -> has_body op -> Forall (fun h => fst h = str "Content-Length" -> decimal (snd h) (len body)) hs ->
  est_io_get_response evs op c = Ok (EST_ERR_HTTP_UNSUPPORTED, Deliver None 0, set_status 200 c).
Proof.
  intros evs d hs body op c A R H Ln P L O F. rewrite <- (firstn_skipn 16 hs) in R, P, F.
  refine (many_refused evs d (firstn 16 hs) (skipn 16 hs) body op c A R H _ _ P L O F).
  - rewrite firstn_length. unfold len in Ln. lia.
  - intro Q. apply (f_equal (@length _)) in Q. rewrite skipn_length in Q. unfold len in Ln. cbn in Q. lia.
Qed.
Theorem C30_many_body_refuted : forall evs d h1 h2 body op c v, arrives evs d -> response d 200 (h1 ++ h2) body -> clean_head d body -> len h1 = 16 -> h2 <> [] ->
  Forall plain_header (h1 ++ h2) -> len d <= 1999955 -> has_body op -> typed op h1 -> last_header h1 (str "Content-Length") v ->
  let b := concat (map render_header h2) ++ CRLF ++ body in
  decimal v (len b) -> est_io_get_response evs op c = Ok (EST_ERR_NONE, Deliver (Some b) (len b), set_status 200 c).
Proof.
  intros evs d h1 h2 body op c v A R H Ln Ne P L O T Lh b D.
  refine (many_taken evs d h1 h2 body op c A R H _ Ne P L O v T Lh D). unfold len in Ln. lia.
Qed.

Definition many_headers (n : bytes) : list (bytes * bytes) :=
  (str "Content-Type", str "application/csrattrs") :: (str "Content-Length", n) :: repeat (str "X-Filler", str "1") 15.
Definition many_response (n : bytes) : bytes := str "HTTP/1.1 200 OK" ++ CRLF ++ concat (map render_header (many_headers n)) ++ CRLF ++ [48; 0].
(** Seventeen headers: with the right length, and with the length of what is taken for the body. *)
Example C30_many_case : forall c,
  est_io_get_response [Data (many_response (str "2")); Data []] OP_CSRATTRS c = Ok (EST_ERR_HTTP_UNSUPPORTED, Deliver None 0, set_status 200 c)
  /\ est_io_get_response [Data (many_response (str "17")); Data []] OP_CSRATTRS c
     = Ok (EST_ERR_NONE, Deliver (Some (str "X-Filler: 1" ++ CRLF ++ CRLF ++ [48; 0])) 17, set_status 200 c).
Proof.
  intro c. assert (L : forall l, forallb (fun c => negb (existsb (Z.eqb c) [0; 10; 13; 58])) l = true -> Forall (fun c => ~ In c [0; 10; 13; 58]) l).
  { intros l F. rewrite Forall_forall. rewrite forallb_forall in F. intros x I Q. specialize (F x I). cbn in Q, F. lia. }
  assert (W : forall n, n = str "2" \/ n = str "17" -> arrives [Data (many_response n); Data []] (many_response n) /\ response (many_response n) 200 (many_headers n) [48; 0]
    /\ clean_head (many_response n) [48; 0] /\ Forall plain_header (many_headers n)).
  { intros n N. split; [|split; [|split]].
    - exists [many_response n], []. split; [reflexivity|]. split; [constructor; [destruct N as [-> | ->]; discriminate|constructor]|cbn [concat]; apply app_nil_r].
    - exists (str "200"), (str "OK"). split; [num|]. split; [reflexivity|]. split; [line|]. split; [|unfold many_response; rewrite <- ?app_assoc; reflexivity].
      unfold many_headers. cbn [repeat]. destruct N as [-> | ->]; repeat (constructor; [split; line|]); constructor.
    - exists (str "HTTP/1.1 200 OK" ++ CRLF ++ concat (map render_header (many_headers n)) ++ CRLF). split; [unfold many_response; rewrite <- !app_assoc; reflexivity|].
      intro K. destruct N as [-> | ->]; cbv in K; repeat destruct K as [K|K]; congruence.
    - unfold many_headers. cbn [repeat]. destruct N as [-> | ->]; repeat (constructor; [split; [discriminate|split; [apply L; reflexivity|split; [|cbn; discriminate]]];
        apply Forall_forall; intros x I Q; cbn [snd str] in I; vm_compute in I; cbn [In] in Q; intuition lia|]); constructor. }
  split.
  - destruct (W (str "2") (or_introl eq_refl)) as (A & R & H & P). refine (C30_many_refuted _ _ _ _ OP_CSRATTRS c A R H _ P _ _ _).
    + reflexivity.
    + apply Z.leb_le. vm_compute. reflexivity.
    + split; discriminate.
    + unfold many_headers. cbn [repeat]. repeat (constructor; [cbn [fst snd]; intro Q; try discriminate Q; num|]). constructor.
  - destruct (W (str "17") (or_intror eq_refl)) as (A & R & H & P).
    change (many_headers (str "17")) with (firstn 16 (many_headers (str "17")) ++ [(str "X-Filler", str "1")]) in R, P.
    refine (C30_many_body_refuted _ _ _ _ _ OP_CSRATTRS c (str "17") A R H _ _ P _ _ _ _ _).
    + reflexivity.
    + discriminate.
    + apply Z.leb_le. vm_compute. reflexivity.
    + split; discriminate.
    + split; [repeat constructor; cbn [fst snd]; intro Q; try discriminate; exists []; reflexivity|]. constructor. reflexivity.
    + exists [(str "Content-Type", str "application/csrattrs")], (repeat (str "X-Filler", str "1") 14). split; [reflexivity|]. cbn [repeat]. repeat (constructor; [discriminate|]). constructor.
    + num.
Qed.

(** ** C31 *)
(** Any "202" response: either a retry with a delay that fits a non-negative
    int and is the decimal value of a Retry-After line of the response, or an
    invalid retry value with delay zero.  Nothing is delivered. *)
Theorem C31 : forall evs raw t op c, arrives evs raw -> raw = str "HTTP/1.1 202" ++ t -> len raw <= 1999955 ->
  exists rv c', est_io_get_response evs op c = Ok (rv, Untouched, c')
  /\ ((rv = EST_ERR_CA_ENROLL_RETRY /\ 0 <= k_delay c' <= 2147483647
       /\ exists name v rest, case_eq name (str "Retry-After") /\ decimal v (k_delay c') /\ header_line raw name v rest)
      \/ (rv = EST_ERR_INVALID_RETRY_VALUE /\ k_delay c' = 0)).
Proof. exact retry_any. Qed.

(** As a server writes it: the last usable Retry-After counts; without one the
    value is invalid. *)
Theorem C31_exact : forall evs d hs body op c, arrives evs d -> response d 202 hs body -> clean_head d body -> plain_headers hs -> no_leading_newline body ->
  len d <= 1999955 ->
  (forall h1 h h2 n, hs = h1 ++ h :: h2 -> retry_header h n -> Forall (fun h => forall n, ~ retry_header h n) h2 ->
     est_io_get_response evs op c = Ok (EST_ERR_CA_ENROLL_RETRY, Untouched, set_delay n (set_status 202 c)))
  /\ (Forall (fun h => forall n, ~ retry_header h n) hs ->
     est_io_get_response evs op c = Ok (EST_ERR_INVALID_RETRY_VALUE, Untouched, set_delay 0 (set_status 202 c))).
Proof. exact retry_exact. Qed.

(** ** C12, client side *)
(** Every response with a listed failure status gives the matching error and no
    body; any other status line gives EST_ERR_UNKNOWN. *)
Theorem C12_client : forall evs raw code t op c, arrives evs raw -> In code [204; 400; 401; 404; 423; 500; 502; 504] ->
  raw = str "HTTP/1.1 " ++ print_int code ++ t -> len raw <= 1999955 ->
  exists c', est_io_get_response evs op c = Ok (status_error code, Untouched, c') /\ k_status c' = code /\ k_delay c' = k_delay c
    /\ (code <> 401 -> c' = set_status code c).
Proof. exact status_any. Qed.
Theorem C12_client_unknown : forall evs raw op c, arrives evs raw -> 0 < len raw <= 1999955 ->
  (forall code t, In code [200; 202; 204; 400; 401; 404; 423; 500; 502; 504] -> raw <> str "HTTP/1.1 " ++ print_int code ++ t) ->
  est_io_get_response evs op c = Ok (EST_ERR_UNKNOWN, Untouched, set_status (-1) c).
Proof. exact status_unknown. Qed.

Section S.
Context {cert csr key E : Type}.
Variable A : @app cert key E.
Variable keep : Z -> bool.

(** *** Server and client together *)
(** Whatever error the server reports, its client ends with the error of that
    status; for a retry, with the delay the server was configured with. *)
Theorem C12_end_to_end : forall delay er s w r evs op c, 0 <= delay -> er <> EST_ERR_CA_ENROLL_RETRY ->
  est_send_http_error A keep delay er s = (w, r) -> all_sent w -> arrives evs (sent w) -> len (sent w) <= 1999955 ->
  exists c', est_io_get_response evs op c = Ok (status_error (http_status er), Untouched, c') /\ k_status c' = http_status er.
Proof. apply errors_end_to_end. Qed.
Theorem C31_end_to_end : forall delay s w r evs op c, 0 <= delay <= 2147483647 ->
  est_send_http_error A keep delay EST_ERR_CA_ENROLL_RETRY s = (w, r) -> all_sent w -> arrives evs (sent w) ->
  est_io_get_response evs op c = Ok (EST_ERR_CA_ENROLL_RETRY, Untouched, set_delay delay (set_status 202 c)).
Proof. apply retry_end_to_end. Qed.
End S.

Example C12_one : forall c, exists c', est_io_get_response [Data (str "HTTP/1.1 40"); Data (str "4 Not Found"); Data []] OP_CACERTS c = Ok (EST_ERR_HTTP_NOT_FOUND, Untouched, c').
Proof.
  intro c. destruct (C12_client [Data (str "HTTP/1.1 40"); Data (str "4 Not Found"); Data []] (str "HTTP/1.1 404 Not Found") 404 (str " Not Found") OP_CACERTS c) as (c' & H & _).
  - exists [str "HTTP/1.1 40"; str "4 Not Found"], []. repeat split; auto. repeat constructor; discriminate.
  - cbn. auto.
  - reflexivity.
  - unfold len. cbn. lia.
  - exists c'. exact H.
Qed.
Example C31_one : forall c, exists rv c', est_io_get_response [Data (str "HTTP/1.1 202 Accepted"); Data []] OP_SIMPLE_ENROLL c = Ok (rv, Untouched, c').
Proof.
  intro c. destruct (C31 [Data (str "HTTP/1.1 202 Accepted"); Data []] (str "HTTP/1.1 202 Accepted") (str " Accepted") OP_SIMPLE_ENROLL c) as (rv & c' & H & _).
  - exists [str "HTTP/1.1 202 Accepted"], []. repeat split; auto. repeat constructor; discriminate.
  - reflexivity.
  - unfold len. cbn. lia.
  - exists rv, c'. exact H.
Qed.

(** ** C36 *)
(** Whatever arrives, if it is at most 1999955 octets long, is handled without
    an access outside a buffer, whatever the operation and context; at most
    sixteen headers are ever recorded.  Partial: for the last 45 octets see
    [C36_refuted]. *)
Theorem C36_partial : forall evs op c, (forall segs more, evs = map Data segs ++ Data [] :: more -> len (concat segs) <= 1999955) ->
  exists r, est_io_get_response evs op c = Ok r.
Proof. exact safe. Qed.
Theorem C36_headers : forall m m1 cur hs, parse_response_headers m = Ok (m1, cur, hs) -> (length hs <= 16)%nat.
Proof. exact sixteen. Qed.
(** A response of exactly 2000000 octets without a NUL is read past its end:
    the buffer has no room for a terminator. *)
Theorem C36_refuted : forall d rest op c, len d = 2000000 -> ~ In 0 d -> est_io_get_response (Data d :: Data [] :: rest) op c = UB.
Proof. exact over_read. Qed.
Example C36_refuted_case : exists d, len d = 2000000 /\ ~ In 0 d.
Proof. exists (repeat 65 (Z.to_nat 2000000)). split; [unfold len; rewrite repeat_length; lia|]. intro I. apply repeat_spec in I. discriminate. Qed.

Print Assumptions C30_partial.
Print Assumptions C30_exact.
Print Assumptions C30_refuted.
Print Assumptions C30_many_refuted.
Print Assumptions C30_many_body_refuted.
Print Assumptions C30_too_big.
Print Assumptions C30_broken.
Print Assumptions C30_no_answer.
Print Assumptions C31.
Print Assumptions C31_exact.
Print Assumptions C31_end_to_end.
Print Assumptions C12_client.
Print Assumptions C12_client_unknown.
Print Assumptions C12_end_to_end.
Print Assumptions C36_partial.
Print Assumptions C36_headers.
Print Assumptions C36_refuted.
