(** C38, C60: BRSKI vouchers on the client.  Read with Spec/Voucher.v and
    Spec/Json.v. *)
From Coq Require Import String ZArith List Bool Lia ZifyBool ZifyNat.
From Verif Require Import Base Spec.Base64 Spec.Json Spec.Voucher Model.CLib Model.EstErr Model.AuthHdr Model.Jsmn Model.Voucher
  Proofs.Codec Proofs.Jsmn Proofs.JsmnSafe Proofs.Voucher.
Import ListNotations.
Open Scope Z_scope.

Section S.
(** OpenSSL's part and the check of the certificates (C35). *)
Variable pkcs7 : Type.
Variable d2i_PKCS7 : bytes -> option pkcs7.
Variable PKCS7_verify : pkcs7 -> Z.
Variable pkcs7_data : pkcs7 -> bytes.
Variable verify_cacert_resp : bytes -> est_error * bytes.
Variable trust_store : bool.
Notation parse_voucher := (brski_parse_voucher pkcs7 d2i_PKCS7 PKCS7_verify pkcs7_data verify_cacert_resp trust_store).
Notation get_voucher := (est_client_brski_get_voucher pkcs7 d2i_PKCS7 PKCS7_verify pkcs7_data verify_cacert_resp trust_store).

(** The signed document [doc] names nonce [n] or none, device [serial] and a
    certificate that checks, giving [t]. *)
Definition names (doc n serial t : bytes) : Prop :=
  exists q cert,
    jsmn_parse jsmn_init doc (len doc) (Some 100) = Ok (len (p_toks q), q)
    /\ (said doc (str "nonce") (tl (p_toks q)) = None \/ said doc (str "nonce") (tl (p_toks q)) = Some n)
    /\ said doc (str "serial-number") (tl (p_toks q)) = Some serial
    /\ said doc (str "pinned-domain-cert") (tl (p_toks q)) = Some cert
    /\ verify_cacert_resp cert = (EST_ERR_NONE, t).

(** ** C38 *)
(** A call that succeeds ended with a request answered by a voucher that
    OpenSSL verified and that names the nonce of that very request (or none)
    and the device's serial number; the certificates kept are the voucher's.
    The nonce is the hexadecimal form of fresh random octets.
    Partial: "names" is by the order of the tokens (see [C38_document] and
    [C38_member_refuted]). *)
Theorem C38_partial : forall serial nb sb cb c nonce1 nonce2 xs len0 l c' tr,
  no_nul serial -> len nb = 34 -> len sb = 66 -> len cb = 8192 -> good_nonce nonce1 -> good_nonce nonce2 ->
  get_voucher (Some serial) nb sb cb c nonce1 nonce2 xs len0 = Ok (EST_ERR_NONE, l, c', tr) ->
  exists r x p t, In (Some r) [nonce1; nonce2] /\ (exists tr0, tr = tr0 ++ [Sent (hex_string r ++ [0]) x]) /\ x_reply x = EST_ERR_NONE
    /\ d2i_PKCS7 (x_voucher x) = Some p /\ trust_store = true /\ PKCS7_verify p <> 0
    /\ names (pkcs7_data p) (hex_string r) serial t /\ v_cacert c' = Some t /\ len serial <= 64.
Proof. exact (get_accepts pkcs7 d2i_PKCS7 PKCS7_verify pkcs7_data verify_cacert_resp trust_store). Qed.

(** For a voucher as RFC 8366 writes it (an object with one member, an object
    with simple values), the claim in full, both ways: processing succeeds iff
    the member "serial-number" is the device's, the member "nonce", if there is
    one, is the nonce sent, and the certificate checks. *)
Theorem C38_document : forall vo p n serial nb sb cb cacert w1 w2 outer ms,
  len n = 32 -> no_nul n -> no_nul serial -> len nb = 34 -> len sb = 66 -> len cb = 8192 -> len serial <= 64 ->
  d2i_PKCS7 vo = Some p -> trust_store = true -> PKCS7_verify p <> 0 ->
  pkcs7_data p = w1 ++ text (voucher outer ms) ++ w2 -> ws w1 -> ws w2 -> valid (voucher outer ms) -> simple ms ->
  len (tokens (voucher outer ms) 0) < 100 ->
  (forall name, In name [str "nonce"; str "serial-number"; str "pinned-domain-cert"] -> outer <> name /\ not_a_value name ms) ->
  (forall cert, member (str "pinned-domain-cert") ms = Some cert -> len cert < 8192) ->
  forall l ca, parse_voucher vo (serial ++ [0]) (n ++ [0]) nb sb cb cacert = Ok (EST_ERR_NONE, l, ca) <->
  l = 0 /\ member (str "serial-number") ms = Some serial
  /\ (member (str "nonce") ms = None \/ member (str "nonce") ms = Some n)
  /\ exists cert t, member (str "pinned-domain-cert") ms = Some cert /\ verify_cacert_resp cert = (EST_ERR_NONE, t) /\ ca = Some t.
Proof. exact (document_accepted pkcs7 d2i_PKCS7 PKCS7_verify pkcs7_data verify_cacert_resp trust_store). Qed.

(** Vouchers that are not verified are never honoured. *)
Theorem C38_unsigned : forall vo serial n nb sb cb cacert,
  (forall p, d2i_PKCS7 vo = Some p -> PKCS7_verify p = 0) ->
  exists e, e <> EST_ERR_NONE /\ parse_voucher vo serial n nb sb cb cacert = Ok (e, 0, cacert).
Proof.
  intros vo serial n nb sb cb cacert U. unfold brski_parse_voucher, verify_voucher. destruct (d2i_PKCS7 vo) as [p|].
  - rewrite (U p eq_refl). destruct trust_store; cbn [Z.eqb]; eexists; (split; [|reflexivity]); discriminate.
  - eexists. split; [|reflexivity]. discriminate.
Qed.

(** Memory safety, outside three cases, each shown to go wrong below. *)
Theorem C38_safe_partial : forall vo n serial nb sb cb cacert,
  len n = 32 -> no_nul n -> no_nul serial -> len nb = 34 -> len sb = 66 -> len cb = 8192 ->
  (forall p r q, d2i_PKCS7 vo = Some p -> jsmn_parse jsmn_init (pkcs7_data p) (len (pkcs7_data p)) (Some 100) = Ok (r, q) ->
     len (p_toks q) < 100
     /\ (forall v, said (pkcs7_data p) (str "serial-number") (tl (p_toks q)) = Some v -> len v <= len serial \/ 64 < len v)
     /\ (forall v, said (pkcs7_data p) (str "pinned-domain-cert") (tl (p_toks q)) = Some v -> len v < 8192)) ->
  is_ok (parse_voucher vo (serial ++ [0]) (n ++ [0]) nb sb cb cacert).
Proof. exact (parse_voucher_safe pkcs7 d2i_PKCS7 PKCS7_verify pkcs7_data verify_cacert_resp trust_store). Qed.

(** A certificate of 8192 characters or more is written past the end of the
    array that receives it. *)
Theorem C38_long_refuted : forall vo p q n serial nb sb cb cacert cert,
  len n = 32 -> no_nul n -> no_nul serial -> len nb = 34 -> len sb = 66 -> len cb = 8192 -> len serial <= 64 ->
  d2i_PKCS7 vo = Some p -> trust_store = true -> PKCS7_verify p <> 0 ->
  jsmn_parse jsmn_init (pkcs7_data p) (len (pkcs7_data p)) (Some 100) = Ok (len (p_toks q), q) -> len (p_toks q) < 100 ->
  said (pkcs7_data p) (str "nonce") (tl (p_toks q)) = None ->
  said (pkcs7_data p) (str "serial-number") (tl (p_toks q)) = Some serial ->
  said (pkcs7_data p) (str "pinned-domain-cert") (tl (p_toks q)) = Some cert -> 8192 <= len cert ->
  parse_voucher vo (serial ++ [0]) (n ++ [0]) nb sb cb cacert = UB.
Proof. exact (long_cert_ub pkcs7 d2i_PKCS7 PKCS7_verify pkcs7_data verify_cacert_resp trust_store). Qed.

(** ** C60 *)
(** At most four requests, one pause, of at most 60 seconds. *)
Theorem C60 : forall ser nb sb cb c nonce1 nonce2 xs len0 rv l c' tr,
  get_voucher ser nb sb cb c nonce1 nonce2 xs len0 = Ok (rv, l, c', tr) ->
  len (sent tr) <= 4 /\ len (slept tr) <= 1 /\ Forall (fun d => d <= 60) (slept tr).
Proof. exact (get_effort pkcs7 d2i_PKCS7 PKCS7_verify pkcs7_data verify_cacert_resp trust_store). Qed.
End S.
Print Assumptions C38_partial.
Print Assumptions C38_document.
Print Assumptions C38_unsigned.
Print Assumptions C38_safe_partial.
Print Assumptions C38_long_refuted.
Print Assumptions C60.

(** ** Instances: every PKCS #7 holds its document, signatures verify, every
    certificate checks. *)
Notation open_voucher doc := (brski_parse_voucher bytes Some (fun _ => 1) (fun d => d) (fun b => (EST_ERR_NONE, b)) true doc).
Definition n0 : bytes := str "00112233445566778899aabbccddeeff".
Definition buf (n : Z) : bytes := repeat 0 (Z.to_nat n).
Definition q (s : string) : bytes := [34] ++ str s ++ [34].

(** The text after the first string "serial-number" counts, wherever it is:
    this voucher's member "serial-number" is another device's. *)
Definition other_device : bytes :=
  str "{" ++ q "x" ++ str ":[" ++ q "serial-number" ++ str "," ++ q "DEV1" ++ str "]," ++ q "serial-number" ++ str ":" ++ q "DEV2" ++ str ","
  ++ q "pinned-domain-cert" ++ str ":" ++ q "AAAA" ++ str "}".
Theorem C38_member_refuted : exists doc, doc = other_device
  /\ open_voucher doc (str "DEV1" ++ [0]) (n0 ++ [0]) (buf 34) (buf 66) (buf 8192) None = Ok (EST_ERR_NONE, 0, Some (str "AAAA")).
Proof. exists other_device. split; [reflexivity|]. vm_compute. reflexivity. Qed.
Print Assumptions C38_member_refuted.

(** A serial number longer than the device's is compared past the end of the
    device's. *)
Definition longer_serial : bytes :=
  str "{" ++ q "serial-number" ++ str ":" ++ q "DEV1X" ++ str "," ++ q "pinned-domain-cert" ++ str ":" ++ q "AAAA" ++ str "}".
Theorem C38_serial_refuted : exists doc, doc = longer_serial
  /\ open_voucher doc (str "DEV1" ++ [0]) (n0 ++ [0]) (buf 34) (buf 66) (buf 8192) None = UB.
Proof. exists longer_serial. split; [reflexivity|]. vm_compute. reflexivity. Qed.
Print Assumptions C38_serial_refuted.

(** A name that is the hundredth token: the token after the array is used. *)
Definition hundred : bytes :=
  str "[" ++ flat_map (fun _ => str "1,") (seq 0 98) ++ q "nonce" ++ str "]".
Theorem C38_tokens_refuted : exists doc, doc = hundred
  /\ open_voucher doc (str "DEV1" ++ [0]) (n0 ++ [0]) (buf 34) (buf 66) (buf 8192) None = UB.
Proof. exists hundred. split; [reflexivity|]. vm_compute. reflexivity. Qed.
Print Assumptions C38_tokens_refuted.

(** A good voucher: [C38_document] applies to it. *)
Definition good_members : members :=
  MCons [] (str "created-on") [] [] (JStr (str "2016-10-07T19:31:42Z")) []
  (MCons [] (str "nonce") [] [32] (JStr n0) []
  (MCons [32] (str "serial-number") [] [] (JStr (str "DEV1")) []
  (MCons [] (str "pinned-domain-cert") [] [] (JStr (str "AAAA")) [] MNil))).
Definition good_voucher : json := voucher (str "ietf-voucher:voucher") good_members.
Lemma good_valid : valid good_voucher.
Proof.
  assert (Bp : forall c t, c <> 0 -> c <> 34 -> c <> 92 -> body t -> body (c :: t)) by (intros; now constructor).
  cbn [valid valid_members good_voucher good_members voucher]. unfold ws.
  repeat match goal with
  | |- _ /\ _ => split
  | |- True => exact Logic.I
  | |- Forall _ [] => constructor
  | |- Forall (fun c => In c [9; 10; 13; 32]) _ => repeat constructor; cbn; tauto
  | |- body (_ :: _) => apply Bp; [lia|lia|lia|]
  | |- body [] => constructor
  | |- body n0 => cbv
  | |- body (str _) => cbv
  end.
Qed.
Example good_accepted :
  open_voucher (text good_voucher) (str "DEV1" ++ [0]) (n0 ++ [0]) (buf 34) (buf 66) (buf 8192) None = Ok (EST_ERR_NONE, 0, Some (str "AAAA")).
Proof.
  apply (C38_document bytes Some (fun _ => 1) (fun d => d) (fun b => (EST_ERR_NONE, b)) true
    (text good_voucher) (text good_voucher) n0 (str "DEV1") (buf 34) (buf 66) (buf 8192) None [] [] (str "ietf-voucher:voucher") good_members);
    try reflexivity; try discriminate; try (constructor; fail); try exact good_valid.
  - intro K. cbv in K. repeat destruct K as [K|K]; congruence.
  - intro K. cbv in K. repeat destruct K as [K|K]; congruence.
  - intros name I. cbn in I. destruct I as [<-|[<-|[<-|[]]]]; (split; [discriminate|]; cbn; repeat split; discriminate).
  - intros cert H. vm_compute in H. injection H as <-. cbn. lia.
  - split; [reflexivity|]. split; [reflexivity|]. split; [right; reflexivity|]. exists (str "AAAA"), (str "AAAA"). auto.
Qed.
(** Another nonce, another device, no certificate. *)
Example stale_nonce : open_voucher (text good_voucher) (str "DEV1" ++ [0]) (str "00112233445566778899aabbccddeefe" ++ [0]) (buf 34) (buf 66) (buf 8192) None
  = Ok (EST_ERR_CLIENT_BRSKI_NONCE_MISMATCH, 0, None).
Proof. vm_compute. reflexivity. Qed.
Example wrong_device : open_voucher (text good_voucher) (str "DEV12" ++ [0]) (n0 ++ [0]) (buf 34) (buf 66) (buf 8192) None
  = Ok (EST_ERR_CLIENT_BRSKI_SERIAL_NUM_MISMATCH, 0, None).
Proof. vm_compute. reflexivity. Qed.

(** A call: asked to authenticate, then to wait 100 seconds, then answered. *)
Definition random : bytes := [0; 17; 34; 51; 68; 85; 102; 119; 136; 153; 170; 187; 204; 221; 238; 255].
Definition no_error (e : est_error) (v : bytes) (m : auth_mode) (d : Z) : exchange :=
  {| x_connect := EST_ERR_NONE; x_cert := EST_ERR_NONE; x_reply := e; x_voucher := v; x_mode := m; x_delay := d |}.
Example whole_call : exists c' tr,
  est_client_brski_get_voucher bytes Some (fun _ => 1) (fun d => d) (fun b => (EST_ERR_NONE, b)) true
    (Some (str "DEV1")) (buf 34) (buf 66) (buf 8192) {| v_mode := AUTH_NONE; v_delay := 0; v_voucher := []; v_cacert := None |}
    (Some (repeat 7 16)) (Some random)
    [no_error EST_ERR_AUTH_FAIL [] AUTH_BASIC 0; no_error EST_ERR_CA_ENROLL_RETRY [] AUTH_BASIC 100; no_error EST_ERR_NONE (text good_voucher) AUTH_NONE 0] 0
  = Ok (EST_ERR_NONE, 0, c', tr) /\ len (sent tr) = 3 /\ slept tr = [60] /\ v_cacert c' = Some (str "AAAA").
Proof. eexists _, _. split; [vm_compute; reflexivity|]. vm_compute. auto. Qed.
