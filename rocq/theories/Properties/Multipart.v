(** C37: multipart key generation responses.  Read with Spec/Multipart.v.
    [junk v] is the octet the allocator happens to leave behind a stored header
    value [v]. *)
From Coq Require Import String ZArith List Bool Lia ZifyBool ZifyNat.
From Verif Require Import Base Spec.Http Spec.Server Spec.Client Spec.Multipart Model.CLib Model.EstErr Model.HttpServer Model.ClientHttp Model.Multipart
  Proofs.ServerReply Proofs.HttpParse Proofs.HttpRender Proofs.ClientHttp Proofs.MultipartRun Proofs.MultipartResponse Proofs.MultipartSafe Proofs.MultipartSound Proofs.MultipartDelimiter.
Import ListNotations.
Open Scope Z_scope.

(** ** What a well-formed response gives back *)
(** Whatever the boundary string (up to 69 characters, not starting with a
    hyphen), the order of the parts, their further headers, the preamble and the
    epilogue, and however the response is cut into reads: the key and the
    certificate of the response are returned.  Partial: see the refuted
    statements below for the rest. *)
Theorem C37_partial : forall junk evs d c hs body B key cert, arrives evs d -> response d 200 hs body -> clean_head d body -> plain_headers hs ->
  no_leading_newline body -> len d + 45 <= 2000000 ->
  announced hs B -> boundary_string 69 B -> hd 0 B <> 45 -> two_parts B key cert body ->
  part_text key -> 256 <= len key <= 8192 -> part_text cert -> 128 <= len cert <= 8192 ->
  est_io_get_keygen_response junk evs c = Ok (EST_ERR_NONE, Some (key, cert), set_status 200 c).
Proof. exact keygen_round_trip. Qed.
(** In particular for the response libest's own server sends. *)
Theorem C37_server_format : forall junk evs d c hs key cert, arrives evs d -> response d 200 hs (keygen_body key cert) -> clean_head d (keygen_body key cert) -> plain_headers hs ->
  len d + 45 <= 2000000 -> In (str "Content-Type", str "multipart/mixed; boundary=est-server-boundary") hs ->
  Forall (fun h => occurs (str "multipart") (snd h) -> h = (str "Content-Type", str "multipart/mixed; boundary=est-server-boundary")) hs ->
  part_text key -> 256 <= len key <= 8192 -> part_text cert -> 128 <= len cert <= 8192 ->
  est_io_get_keygen_response junk evs c = Ok (EST_ERR_NONE, Some (key, cert), set_status 200 c).
Proof.
  intros junk evs d c hs key cert A R C P L Fi Fo Tk Lk Tc Lc.
  assert (An : announces (str "multipart/mixed; boundary=est-server-boundary") (str "est-server-boundary")).
  { exists (str "est-server-boundary"), [], []. split; [reflexivity|]. split; [now left|]. split; [constructor|now left]. }
  apply (C37_partial junk evs d c hs (keygen_body key cert) (str "est-server-boundary")); auto.
  - split; discriminate.
  - split.
    + rewrite Forall_forall in *. intros h I O. rewrite (Fo h I O). exact An.
    + rewrite Exists_exists. eexists. split; [exact Fi|]. exact An.
  - split; [cbn; lia|]. split; [|discriminate]. apply Forall_forall. intros x I.
    assert (G : forallb (fun c => existsb (Z.eqb c) boundary_chars) (str "est-server-boundary") = true) by reflexivity.
    rewrite forallb_forall in G. specialize (G x I). apply existsb_exists in G as (y & Iy & E). apply Z.eqb_eq in E. now subst.
  - discriminate.
  - apply server_body.
Qed.

(** ** What any other response gives back *)
(** A 200 response with an arbitrary body (in which the boundary occurs and
    which has at most fifteen colons): no access outside a buffer, and a key and a
    certificate are handed out only if both are content of that body, under
    headers with their types, and of a sensible length.  (The body is followed by
    zeros in the buffer.)  Otherwise there is an error and nothing is handed out. *)
Theorem C37_sound : forall junk evs d c hs body B, harmless junk ->
  arrives evs d -> response d 200 hs body -> clean_head d body -> plain_headers hs -> no_leading_newline body -> len d <= 999000 ->
  announced hs B -> boundary_string 68 B -> occurs B (text body) -> colons body <= 15 ->
  exists rv r, est_io_get_keygen_response junk evs c = Ok (rv, r, set_status 200 c)
    /\ match r with
       | None => rv <> EST_ERR_NONE
       | Some (key, cert) => rv = EST_ERR_NONE /\ 256 <= len key <= 8192 /\ 128 <= len cert <= 8192
           /\ exists k e, e <= len body + k /\ content (body ++ repeat 0 (Z.to_nat k)) e key_type key /\ content (body ++ repeat 0 (Z.to_nat k)) e cert_type cert
       end.
Proof. exact keygen_sound. Qed.
(** Anything that does not start as a 200 response: an error and nothing handed
    out. *)
Theorem C37_error : forall junk evs d c, arrives evs d -> 0 < len d -> len d + 45 <= 2000000 -> ~ starts (str "HTTP/1.1 200") d ->
  exists rv c', est_io_get_keygen_response junk evs c = Ok (rv, None, c') /\ rv <> EST_ERR_NONE.
Proof. exact keygen_error. Qed.
(** A first delimiter that is not followed by the end of its line (or by the
    hyphens of a last delimiter) is refused. *)
Theorem C37_delimiter : forall junk evs d c hs pre B x y post, let body := pre ++ str "--" ++ B ++ x :: y :: post in
  arrives evs d -> response d 200 hs body -> clean_head d body -> plain_headers hs -> no_leading_newline body -> len d + 45 <= 2000000 ->
  announced hs B -> boundary_string 69 B -> hd 0 B <> 45 -> ~ In 0 pre -> (forall u v, pre ++ str "--" ++ B = u ++ B ++ v -> v = []) ->
  x <> 0 -> y <> 0 -> x <> 45 -> ~ (x = 13 /\ y = 10) ->
  est_io_get_keygen_response junk evs c = Ok (EST_ERR_MULTIPART_PARSE, None, set_status 200 c).
Proof. exact bad_delimiter. Qed.

(** ** Where it goes wrong *)
(** A response whose body lacks the announced boundary makes the client follow
    a null pointer. *)
Theorem C37_absent_boundary_refuted : forall junk evs d c hs body B, arrives evs d -> response d 200 hs body -> clean_head d body -> plain_headers hs -> no_leading_newline body ->
  len d + 45 <= 2000000 -> announced hs B -> boundary_string 70 B -> ~ occurs B (text body) -> est_io_get_keygen_response junk evs c = UB.
Proof. exact absent_boundary. Qed.
(** A boundary of 70 characters, the longest RFC 2046 allows and the client
    accepts, is copied behind the end of the parser's 70 octets. *)
Theorem C37_long_boundary_refuted : forall junk evs d c hs body B, arrives evs d -> response d 200 hs body -> clean_head d body -> plain_headers hs -> no_leading_newline body ->
  len d + 45 <= 2000000 -> announced hs B -> boundary_string 70 B -> len B = 70 -> est_io_get_keygen_response junk evs c = UB.
Proof. exact long_boundary. Qed.
(** A 200 response without a multipart header counts as a success without a key
    and a certificate. *)
Theorem C37_no_multipart_refuted : forall junk evs d c hs body, arrives evs d -> response d 200 hs body -> clean_head d body -> plain_headers hs -> no_leading_newline body ->
  len d + 45 <= 2000000 -> Forall (fun h => ~ occurs (str "multipart") (snd h)) hs ->
  est_io_get_keygen_response junk evs c = Ok (EST_ERR_NONE, None, set_status 200 c).
Proof. exact no_multipart. Qed.

(** The parser by itself, on a text followed by 100 zeros. *)
Definition zero (v : bytes) : Z := 0.
Definition lines (l : list string) : bytes := concat (map (fun s => str s ++ CRLF) l).
Definition parse junk (l : bytes) (bnd : string) := parse_remaining_multipart_payload junk (l ++ repeat 0 100) 0 (str bnd).
Definition CT8 : string := "Content-Type: application/pkcs8".
Definition CT7 : string := "Content-Type: application/pkcs7-mime; smime-type=certs-only".
Definition CTE : string := "Content-Transfer-Encoding: base64".

Example C37_parse_one : parse zero (lines ["--b"; CT8; CTE; ""; "MIIE"; "--b"; CT7; CTE; ""; "MIIC"; "--b--"]%string) "b"
  = Ok (EST_ERR_NONE, str "MIIE", str "MIIC").
Proof. vm_compute. reflexivity. Qed.
(** The type of a part without a transfer encoding is taken for that of the
    next: text nobody called a key is returned as the key. *)
Theorem C37_header_leak_refuted : parse zero (lines ["--b"; CT8; ""; "MIIE"; "--b"; CTE; ""; "text"; "--b"; CT7; CTE; ""; "MIIC"; "--b--"]%string) "b"
  = Ok (EST_ERR_NONE, str "text", str "MIIC").
Proof. vm_compute. reflexivity. Qed.
(** A response that breaks off in the certificate is accepted, and the
    certificate is what came, with zeros. *)
Theorem C37_truncated_refuted : parse zero (lines ["--b"; CT8; CTE; ""; "MIIE"; "--b"; CT7; CTE; ""]%string ++ str "MI") "b"
  = Ok (EST_ERR_NONE, str "MIIE", str "MI" ++ [0; 0]).
Proof. vm_compute. reflexivity. Qed.
(** A boundary that starts with a hyphen is refused. *)
Theorem C37_hyphen_refuted : parse zero (lines ["---b"; CT8; CTE; ""; "MIIE"; "---b"; CT7; CTE; ""; "MIIC"; "---b--"]%string) "-b"
  = Ok (EST_ERR_MULTIPART_PARSE, [], []).
Proof. vm_compute. reflexivity. Qed.
(** Seventeen headers that matter overrun the header table. *)
Theorem C37_many_headers_refuted : parse zero (lines ["--b"%string] ++ lines (repeat CTE 17) ++ lines [CT8; ""; "MIIE"; "--b"; CT7; CTE; ""; "MIIC"; "--b--"]%string) "b" = UB.
Proof. vm_compute. reflexivity. Qed.
(** A value that is cut short is compared with what was left in memory. *)
Theorem C37_unterminated_refuted : parse (fun v => 54) (lines ["--b"; CT8; "Content-Transfer-Encoding: base"; ""; "MIIE"; "--b--"]%string) "b" = UB.
Proof. vm_compute. reflexivity. Qed.

(** ** Cases *)
Definition k300 : bytes := repeat 75 300.
Definition c200 : bytes := repeat 67 200.
Definition kg_headers : list (bytes * bytes) := [(str "Status", str "200 OK"); (str "Content-Type", str "multipart/mixed; boundary=est-server-boundary")].
Definition kg_head : bytes := str "HTTP/1.1 200 OK" ++ CRLF ++ concat (map render_header kg_headers) ++ CRLF.
Lemma kg_facts : forall body, response (kg_head ++ body) 200 kg_headers body /\ clean_head (kg_head ++ body) body /\ plain_headers kg_headers.
Proof.
  intro body. assert (L : forall l, forallb (fun c => negb (existsb (Z.eqb c) [0; 10; 13; 58])) l = true -> Forall (fun c => ~ In c [0; 10; 13; 58]) l).
  { intros l F. rewrite Forall_forall. rewrite forallb_forall in F. intros x I Q. specialize (F x I). cbn in Q, F. lia. }
  split; [|split].
  - exists (str "200"), (str "OK"). split; [num|]. split; [reflexivity|]. split; [line|]. split.
    + constructor; [split; line|constructor; [split; line|constructor]].
    + unfold kg_head. rewrite <- ?app_assoc. reflexivity.
  - exists kg_head. split; [reflexivity|]. intro K. cbv in K. repeat destruct K as [K|K]; congruence.
  - split; [unfold len; cbn; lia|]. repeat constructor; cbn [fst snd]; try discriminate; try (apply L; reflexivity); try (cbn; intuition discriminate).
Qed.
Lemma kg_text : forall x k, 48 <= x <= 90 -> (1 <= k)%nat -> part_text (repeat x k).
Proof.
  intros x k Hx Hk. split; [intro I; apply repeat_spec in I; lia|]. split; [intro I; apply repeat_spec in I; lia|]. destruct k; [lia|]. left. lia.
Qed.
Example C37_case : forall junk c, est_io_get_keygen_response junk [Data (kg_head ++ keygen_body k300 c200); Data []] c = Ok (EST_ERR_NONE, Some (k300, c200), set_status 200 c).
Proof.
  intros junk c. destruct (kg_facts (keygen_body k300 c200)) as (R & C & P). eapply (C37_server_format junk _ (kg_head ++ keygen_body k300 c200) c kg_headers); auto.
  - exists [kg_head ++ keygen_body k300 c200], []. split; [reflexivity|]. split; [repeat constructor; discriminate|]. cbn [concat]. apply app_nil_r.
  - vm_compute. discriminate.
  - right. left. reflexivity.
  - constructor; [intros (a & b & E)|constructor; [reflexivity|constructor]].
    cbn [snd] in E. do 7 (destruct a as [|? a]; [discriminate|]). discriminate.
  - apply kg_text; lia.
  - vm_compute. split; discriminate.
  - apply kg_text; lia.
  - vm_compute. split; discriminate.
Qed.
Example C37_sound_case : harmless zero /\ occurs (str "est-server-boundary") (text (keygen_body k300 c200)) /\ colons (keygen_body k300 c200) = 4.
Proof.
  split; [intros v I; cbv in I; repeat (destruct I as [I|I]; [discriminate|]); exact I|]. split; [|reflexivity].
  exists (str "--"), (skipn 21 (keygen_body k300 c200)). vm_compute. reflexivity.
Qed.
Example C37_delimiter_case : forall junk c, est_io_get_keygen_response junk [Data (kg_head ++ str "--est-server-boundary" ++ [13; 59; 10] ++ keygen_body k300 c200); Data []] c
  = Ok (EST_ERR_MULTIPART_PARSE, None, set_status 200 c).
Proof.
  intros junk c. set (body := str "--est-server-boundary" ++ [13; 59; 10] ++ keygen_body k300 c200). destruct (kg_facts body) as (R & C & P).
  apply (C37_delimiter junk _ (kg_head ++ body) c kg_headers [] (str "est-server-boundary") 13 59 (10 :: keygen_body k300 c200)); try exact R; try exact C; try exact P; try discriminate.
  - exists [kg_head ++ body], []. split; [reflexivity|]. split; [repeat constructor; discriminate|]. cbn [concat]. apply app_nil_r.
  - split; discriminate.
  - split.
    + constructor; [intros (a & b & E)|constructor; [intros _|constructor]].
      * cbn [snd] in E. do 7 (destruct a as [|? a]; [discriminate|]). discriminate.
      * exists (str "est-server-boundary"), [], []. repeat split; auto.
    + right. left. exists (str "est-server-boundary"), [], []. repeat split; auto.
  - split; [vm_compute; split; discriminate|]. split; [|vm_compute; discriminate]. apply Forall_forall. intros z I. cbv in I. repeat (destruct I as [<-|I]; [cbv; tauto|]). destruct I.
  - intros [].
  - intros u v E. assert (Lu : 2 <= len u) by (do 2 (destruct u as [|? u]; [discriminate E|]); rewrite !len_cons; pose proof (len_nonneg _ u); lia).
    apply (f_equal len) in E. rewrite !len_app in E. change (len (str "--")) with 2 in E. change (len (@nil Z)) with 0 in E. pose proof (len_nonneg _ v).
    destruct v as [|? v]; [reflexivity|]. rewrite len_cons in *. pose proof (len_nonneg _ v). lia.
  - lia.
Qed.

Print Assumptions C37_delimiter.
Print Assumptions C37_partial.
Print Assumptions C37_server_format.
Print Assumptions C37_sound.
Print Assumptions C37_error.
Print Assumptions C37_absent_boundary_refuted.
Print Assumptions C37_long_boundary_refuted.
Print Assumptions C37_no_multipart_refuted.
Print Assumptions C37_header_leak_refuted.
Print Assumptions C37_truncated_refuted.
Print Assumptions C37_hyphen_refuted.
Print Assumptions C37_many_headers_refuted.
Print Assumptions C37_unterminated_refuted.
