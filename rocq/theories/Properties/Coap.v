(** C40-C44, C62-C64: the CoAP server.
    Read with Spec/Coap.v, Spec/CoapHistory.v and Spec/Cbor.v.

    [run bio bsearch qsort h (est_coap_init_req_array N)] serves the history [h]
    of connects, closes and messages of any peers on a server with room for [N]
    sessions; its result lists, for each event, the reply and the actions.
    [answers_to (mine p) h rs] are the results of peer [p]'s own events.  [bio]
    is OpenSSL's base64 filter ([b64_bio], Spec/Base64.v), [bsearch] and [qsort]
    are the C library's ([search_lib]); both contracts are met by the instances
    used in the examples. *)
From Coq Require Import String ZArith List Bool Lia ZifyBool ZifyNat.
From Verif Require Import Base Spec.Base64 Spec.Http Spec.Coap Spec.Cbor Spec.CoapHistory Model.CLib Model.EstErr Model.Codec Model.Coap
  Proofs.Codec Proofs.CoapCbor Proofs.CoapServe Proofs.CoapClaims Proofs.CoapSafe Proofs.CoapDeliver.
Import ListNotations.
Open Scope Z_scope.

Example contracts_met : b64_bio rfc_bio /\ search_lib q_key linear_search insertion_sort.
Proof. split; [exact rfc_bio_ok|exact lib_ok]. Qed.

(** Two peers, a 20-byte request, a 4-byte "certificate"; blocks of 16 bytes. *)
Definition alice : peer := (5683, Some (str "1.2.3.4")).
Definition bob : peer := (5684, Some (str "1.2.3.4")).
Definition csr : bytes := str "0123456789abcdefghij".
Definition der : bytes := [48; 2; 5; 0].
Definition issue (rc : est_error) : coap_op -> bytes -> outcome :=
  fun op _ => {| o_rc := rc; o_text := Some (b64_encode der); o_key := match op with OpSkg => Some (b64_encode (str "secret")) | _ => None end |}.
Definition post (op : coap_op) (szx k : Z) (data : bytes) (rc : est_error) : message :=
  {| m_op := op; m_opts := [(12, [1; 30])];
     m_block1 := Some {| b_num := k; b_more := k <? last_block szx data; b_szx := szx |};
     m_payload := block_data szx k data; m_ssl := true; m_cert := true; m_env := issue rc; m_more2 := false |}.
Definition get (op : coap_op) (o : outcome) : message :=
  {| m_op := op; m_opts := []; m_block1 := None; m_payload := []; m_ssl := true; m_cert := false; m_env := fun _ _ => o; m_more2 := false |}.
Notation serve_all h n := (run rfc_bio linear_search insertion_sort h (est_coap_init_req_array n)).
Notation replies h n := (match serve_all h n with Ok (rs, _) => Some (map fst rs) | UB => None end).
Notation called h n := (match serve_all h n with Ok (rs, _) => Some (map (fun x => calls (snd x)) rs) | UB => None end).

(** ** C40 *)
(** For every key and certificate text the library returns (base64, wrapped or
    not), the payload is one CBOR item, the array of 284, the key, 281 and the
    certificate; it has the size announced; more than 16384 bytes are refused. *)
Theorem C40 : forall bio, b64_bio bio -> forall tk tc key cert,
  text_of tk key -> text_of tc cert -> all_bytes key -> all_bytes cert -> key <> [] -> cert <> [] ->
  if keygen_size key cert <=? 16384
  then exists p, skg_payload bio tk tc = Ok (Some p)
       /\ cbor p (Arr [UInt 284; BStr key; UInt 281; BStr cert]) /\ len p = keygen_size key cert
  else skg_payload bio tk tc = Ok None.
Proof.
  intros bio Hb tk tc key cert Tk Tc Bk Bc Nk Nc. rewrite (skg_exact bio Hb tk tc key cert) by assumption.
  destruct (keygen_size key cert <=? 16384) eqn:L; [|reflexivity]. exists (skg_bytes key cert).
  split; [reflexivity|]. split; [|apply skg_bytes_len].
  pose proof (bstr_size_ge (len key)); pose proof (bstr_size_ge (len cert)); pose proof (len_nonneg _ key); pose proof (len_nonneg _ cert).
  apply skg_bytes_cbor; unfold keygen_size in L; lia.
Qed.
Print Assumptions C40.

(** ... and whatever texts the application returns, a payload that is sent is
    such an array of what they decode to, at most 16384 bytes. *)
Theorem C40_any : forall bio tk tc p, skg_payload bio tk tc = Ok (Some p) -> len p <= 16384
  /\ exists key cert a b, decode_text bio tk a = Ok (Some key) /\ decode_text bio tc b = Ok (Some cert)
     /\ cbor p (Arr [UInt 284; BStr key; UInt 281; BStr cert]) /\ len p = keygen_size key cert.
Proof.
  intros bio tk tc p H. apply skg_sound in H as (k & c & a & b & D1 & D2 & -> & L). split; [exact L|]. exists k, c, a, b.
  split; [exact D1|]. split; [exact D2|]. rewrite skg_bytes_len in *. split; [|reflexivity].
  pose proof (bstr_size_ge (len k)); pose proof (bstr_size_ge (len c)); pose proof (len_nonneg _ k); pose proof (len_nonneg _ c).
  apply skg_bytes_cbor; unfold keygen_size in L; lia.
Qed.
Print Assumptions C40_any.

Example C40_case : skg_payload rfc_bio (b64_encode (str "secret")) (b64_encode der)
  = Ok (Some ([132; 25; 1; 28; 70] ++ str "secret" ++ [25; 1; 25; 68] ++ der)).
Proof. vm_compute. reflexivity. Qed.

(** ** C41 *)
(** An upload of a request of 5 to 16384 bytes in blocks, after any earlier
    traffic of this peer and among the traffic of others: blocks in order,
    repeated blocks (but block 0) and blocks after a gap are answered as
    [upload] says and call nothing; the block that completes the request calls
    the operation once, with the base64 text of exactly the request, and its
    answer is what the operation returned ([delivered]: C40, C63).
    Partial: what is missing is refuted below. *)
Theorem C41_partial : forall bio, b64_bio bio -> forall bsearch qsort, search_lib q_key bsearch qsort ->
  forall N ps h p op szx data h0 ms ks final rs t,
  peers_fit N ps h -> In p ps -> enrolls op -> 0 <= szx <= 6 -> 5 <= len data <= 16384 ->
  filter (mine p) h = h0 ++ map (Message p) (ms ++ [final]) ->
  (forall q m, In (Message q m) h0 -> plain m /\ m_op m <> OpReset) ->
  upload (last_block szx data) (-1) ks ->
  Forall2 (fun m k => posted op m /\ carries szx (fst k) data m) ms ks ->
  posted op final -> carries szx (last_block szx data) data final ->
  run bio bsearch qsort h (est_coap_init_req_array N) = Ok (rs, t) ->
  exists rs0 rs1 r a, answers_to (mine p) h rs = rs0 ++ rs1 ++ [(Some r, a)] /\ length rs0 = length h0
    /\ Forall2 (answered szx) ks rs1
    /\ calls a = [(op, b64_wrap (b64_encode data))]
    /\ delivered op (m_env final op (b64_wrap (b64_encode data))) r.
Proof. exact coap_delivered. Qed.
Print Assumptions C41_partial.

Lemma short_post : short_options [(12, [1; 30])].
Proof. intros o [<-|[]]. split; [repeat constructor; unfold is_byte; lia|cbn; lia]. Qed.
Lemma posted_post : forall op szx k data rc, posted op (post op szx k data rc).
Proof. intros. constructor; try reflexivity; [exact short_post|now left]. Qed.
Lemma carries_post : forall op szx k data rc, carries szx k data (post op szx k data rc).
Proof. intros. split; reflexivity. Qed.

(** The hypotheses are met by an upload of 40 bytes among messages of another
    peer: blocks 0, 2 (gap), 1, 1 (again), 2. *)
Definition csr40 : bytes := csr ++ csr.
Definition upload40 : list event :=
  [Connected alice; Message bob (post OpSen 0 0 csr EST_ERR_NONE); Message alice (post OpSen 0 0 csr40 EST_ERR_NONE);
   Message alice (post OpSen 0 2 csr40 EST_ERR_NONE); Message alice (post OpSen 0 1 csr40 EST_ERR_NONE);
   Message bob (post OpSen 0 1 csr EST_ERR_NONE);
   Message alice (post OpSen 0 1 csr40 EST_ERR_NONE); Message alice (post OpSen 0 2 csr40 EST_ERR_NONE)].
Lemma two_peers : forall N h, 2 <= N -> (forall e, In e h -> peer_of e = alice \/ peer_of e = bob) -> peers_fit N [alice; bob] h.
Proof.
  intros N h HN H. constructor.
  - constructor; [intros [X|[]]; discriminate|]. constructor; [intros []|constructor].
  - cbn; lia.
  - intros e I. destruct (H e I) as [-> | ->]; cbn; auto.
  - intros p [<-|[<-|[]]]; split; cbn; (lia || discriminate).
  - intros p q Ip Iq E. destruct Ip as [<-|[<-|[]]], Iq as [<-|[<-|[]]]; try reflexivity; exfalso; revert E; vm_compute; discriminate.
Qed.
Example C41_case :
  let ks := [(0, 231); (2, 408); (1, 231); (1, 231)] in let ms := map (fun k => post OpSen 0 (fst k) csr40 EST_ERR_NONE) ks in
  peers_fit 2 [alice; bob] upload40
  /\ filter (mine alice) upload40 = [Connected alice] ++ map (Message alice) (ms ++ [post OpSen 0 2 csr40 EST_ERR_NONE])
  /\ upload (last_block 0 csr40) (-1) ks
  /\ Forall2 (fun m k => posted OpSen m /\ carries 0 (fst k) csr40 m) ms ks
  /\ called upload40 2 = Some [[]; []; []; []; []; [(OpSen, b64_wrap (b64_encode csr))]; []; [(OpSen, b64_wrap (b64_encode csr40))]].
Proof.
  cbv zeta. split; [|split; [|split; [|split]]].
  - apply two_peers; [lia|]. intros e I. repeat (destruct I as [<-|I]; [cbn; auto|]). destruct I.
  - reflexivity.
  - change (last_block 0 csr40) with 2. apply (up_next 2 (-1)); [lia|]. apply up_gap; [lia|lia|]. apply (up_next 2 0); [lia|].
    apply up_again; [lia|]. apply (up_last 2).
  - cbn [map fst]. repeat (apply Forall2_cons; [split; [apply posted_post|apply carries_post]|]). apply Forall2_nil.
  - vm_compute. reflexivity.
Qed.

(** No message makes the server leave its buffers if each block fits the
    16384-byte buffer at its offset, a request starts with at least five bytes
    and the texts the application returns are visible. *)
Theorem C41_safe_partial : forall bio bsearch qsort, search_lib q_key bsearch qsort ->
  forall N h, (forall p m, In (Message p m) h -> sane m) ->
  is_ok (run bio bsearch qsort h (est_coap_init_req_array N)).
Proof. exact coap_safe. Qed.
Print Assumptions C41_safe_partial.
Example C41_safe_case : forall k, 0 <= k <= 2 -> sane (post OpSen 0 k csr40 EST_ERR_NONE).
Proof.
  intros k Hk. assert (C : k = 0 \/ k = 1 \/ k = 2) by lia.
  assert (V : forall op t s, o_text (issue EST_ERR_NONE op t) = Some s \/ o_key (issue EST_ERR_NONE op t) = Some s -> visible s).
  { intros op t s H. assert (E : s = b64_encode der \/ s = b64_encode (str "secret")).
    { destruct H as [H|H]; [left; now inversion H|right]. destruct op; now inversion H. }
    destruct E as [-> | ->]; (split; [intro K; cbv in K; repeat destruct K as [K|K]; congruence|]).
    - exists 77. split; [vm_compute; auto|reflexivity].
    - exists 99. split; [vm_compute; auto|reflexivity]. }
  destruct C as [->|[->| ->]]; constructor; try exact V; try (cbv; intros; discriminate || lia);
    try (vm_compute; repeat split; intro; discriminate).
Qed.

(** Refuted: the upload never exceeds the buffer.  Blocks 0 to 16 of 1024 bytes:
    block 16 is written at offset 16384, behind the buffer. *)
Theorem C41_overrun_refuted : exists h : list event,
  (forall e, In e h -> exists k, 0 <= k <= 16 /\ e = Message alice (post OpSen 6 k (repeat 65 (Z.to_nat 18000)) EST_ERR_NONE))
  /\ serve_all h 2 = UB.
Proof.
  exists (map (fun k => Message alice (post OpSen 6 (Z.of_nat k) (repeat 65 (Z.to_nat 18000)) EST_ERR_NONE)) (seq 0 17)). split.
  - intros e I. apply in_map_iff in I as (k & <- & I). apply in_seq in I. exists (Z.of_nat k). split; [lia|reflexivity].
  - vm_compute. reflexivity.
Qed.
Print Assumptions C41_overrun_refuted.

(** Refuted: duplicated blocks are ignored.  Block 0 sent twice makes the server
    forget block 1, and block 2 is then answered 4.08. *)
Theorem C41_duplicate_refuted : exists h, h = map (fun k => Message alice (post OpSen 0 k csr40 EST_ERR_NONE)) [0; 1; 0; 2]
  /\ replies h 2 = Some (map (fun r => Some r)
       [{| r_code := 231; r_body := None; r_block1 := Some 8 |}; {| r_code := 231; r_body := None; r_block1 := Some 24 |};
        {| r_code := 231; r_body := None; r_block1 := Some 8 |}; code 408]).
Proof. eexists. split; [reflexivity|]. vm_compute. reflexivity. Qed.
Print Assumptions C41_duplicate_refuted.

(** Refuted: any request.  One of one, two or four bytes is encoded into a block of
    twice its size, which is too small for its base64 text. *)
Theorem C41_short_refuted : forall data, In data [str "0"; str "01"; str "0123"] ->
  serve_all [Message alice (post OpSen 0 0 data EST_ERR_NONE)] 2 = UB.
Proof. intros data [<-|[<-|[<-|[]]]]; vm_compute; reflexivity. Qed.
Print Assumptions C41_short_refuted.

(** ** C42 *)
(** What a peer is answered does not depend on the other peers: it is what it
    would be answered if it were alone.  Partial: [peers_fit] asks that the
    peers have different keys, see C42_keys. *)
Theorem C42_partial : forall bio bsearch qsort, search_lib q_key bsearch qsort ->
  forall N ps h p rs t, peers_fit N ps h -> In p ps ->
  run bio bsearch qsort h (est_coap_init_req_array N) = Ok (rs, t) ->
  exists t', run bio bsearch qsort (filter (mine p) h) (est_coap_init_req_array N) = Ok (answers_to (mine p) h rs, t').
Proof. exact coap_isolated. Qed.
Print Assumptions C42_partial.
Example C42_case : peers_fit 2 [alice; bob] upload40
  /\ answers_to (mine bob) upload40 (match serve_all upload40 2 with Ok (rs, _) => rs | UB => [] end)
     = (match serve_all [Message bob (post OpSen 0 0 csr EST_ERR_NONE); Message bob (post OpSen 0 1 csr EST_ERR_NONE)] 2 with Ok (rs, _) => rs | UB => [] end)
  /\ length (answers_to (mine bob) upload40 (match serve_all upload40 2 with Ok (rs, _) => rs | UB => [] end)) = 2%nat.
Proof. split; [apply C41_case|]. split; vm_compute; reflexivity. Qed.

(** The number of states in use is the number of peers with a session: those
    that connected or sent an admissible request and have not closed since, as
    far as there was room.  It is never more than the maximum, and a peer that
    finds no room changes nothing, calls nothing and is refused.  Here there may
    be more peers than room. *)
Theorem C42_count : forall bio bsearch qsort, search_lib q_key bsearch qsort ->
  forall N ps h rs t, 0 <= N -> (forall p m, In (Message p m) h -> short_options (m_opts m)) ->
  (forall e, In e h -> In (peer_of e) ps) -> (forall p, In p ps -> addressed p) ->
  (forall p q, In p ps -> In q ps -> search_key p = search_key q -> p = q) ->
  run bio bsearch qsort h (est_coap_init_req_array N) = Ok (rs, t) ->
  let act := sessions event peer peer_eqb opens closes N h in
  t_cnt t = len act /\ len act <= N /\ NoDup act
  /\ forall e r a t', In (peer_of e) ps -> ~ In (peer_of e) act -> len act = N -> step bio bsearch qsort e t = Ok (r, a, t') ->
       t' = t /\ calls a = [] /\ (forall p m, e = Message p m -> exists r', r = Some r' /\ 400 <= r_code r' /\ r_body r' = None).
Proof. exact coap_count. Qed.
Print Assumptions C42_count.
Example C42_count_case : let h := upload40 ++ [Closed bob; Message bob (get OpCrts {| o_rc := EST_ERR_NONE; o_text := None; o_key := None |}); Closed alice] in
  sessions event peer peer_eqb opens closes 2 h = [bob] /\ option_map (fun x => t_cnt (snd x)) (match serve_all h 2 with Ok x => Some x | UB => None end) = Some 1.
Proof. split; vm_compute; reflexivity. Qed.

(** When peers have different keys: ports with equally many digits, or one
    address. *)
Theorem C42_keys : forall p q, addressed p -> addressed q ->
  len (print_int (fst p)) = len (print_int (fst q)) \/ snd p = snd q -> search_key p = search_key q -> p = q.
Proof. intros p q Hp Hq [L|E]; [now apply keys_distinct|now apply keys_same_ip]. Qed.
Print Assumptions C42_keys.

(** Refuted: different peers never share state.  Port 5683 of 1.2.3.4 and port
    568 of 31.2.3.4 have the same key; the second completes the request the
    first began, under its own TLS session, and what is enrolled is the first's
    data. *)
Definition mallory : peer := (568, Some (str "31.2.3.4")).
Theorem C42_keys_refuted : mallory <> alice /\ search_key mallory = search_key alice
  /\ called [Message alice (post OpSen 0 0 csr EST_ERR_NONE); Message mallory (post OpSen 0 1 (str "xxxxxxxxxxxxxxxxevil") EST_ERR_NONE)] 2
     = Some [[]; [(OpSen, b64_wrap (b64_encode (firstn 16 csr ++ str "evil")))]].
Proof. split; [discriminate|]. split; vm_compute; reflexivity. Qed.
Print Assumptions C42_keys_refuted.

(** Refuted: finding the state is free of undefined behaviour.  The local array
    of 46 bytes for the address is cleared with 47 (the theorems above take it
    to be 47 bytes long). *)
Theorem C42_stack_refuted : clear_src_ipstr (repeat 0 46) = UB.
Proof. reflexivity. Qed.
Print Assumptions C42_stack_refuted.

(** ** C43 *)
Theorem C43 : forall initial, 2 <= initial <= 60 -> forall k : nat,
  Nat.iter k (est_coap_dtls_timer_callback initial) (est_coap_dtls_timer_callback initial 0)
  = Z.min 60000000 (initial * 1000000 * 2 ^ Z.of_nat k).
Proof. exact timer_values. Qed.
Print Assumptions C43.
Example C43_case : map (fun k => Nat.iter k (est_coap_dtls_timer_callback 9) (est_coap_dtls_timer_callback 9 0)) [0; 1; 2; 3; 4]%nat
  = [9000000; 18000000; 36000000; 60000000; 60000000].
Proof. reflexivity. Qed.

(** ** C44 *)
(** Wherever the server stands: an enrollment request without exactly one
    Content-Format 286 is refused (4.02 if there is none, there are several or
    it is no format number, else 4.00), and nothing changes. *)
Theorem C44_content : forall bio bsearch qsort p m t c, enrolls (m_op m) -> short_options (m_opts m) ->
  option_verdict (values 12 (m_opts m)) 402 286 400 = c -> c <> 0 ->
  step bio bsearch qsort (Message p m) t = Ok (Some (code c), [], t).
Proof. exact content_format. Qed.
Print Assumptions C44_content.
Theorem C44_content_exact : forall vs, option_verdict vs 402 286 400 = 0 <-> vs = [286].
Proof.
  intros [|v [|w l]]; cbn; split; intro H; try discriminate.
  - destruct (v =? 286) eqn:E; [f_equal; lia|destruct (65535 <? v); discriminate].
  - now inversion H.
  - destruct (v =? 286); [discriminate|]. destruct (65535 <? v); discriminate.
Qed.
Print Assumptions C44_content_exact.

(** A first message with an Accept option other than one with the media type of
    the resource is refused (4.02, else 4.06) and calls nothing. *)
Theorem C44_accept : forall bio bsearch qsort, search_lib q_key bsearch qsort ->
  forall N ps h p h0 m rs t c, peers_fit N ps h -> In p ps ->
  filter (mine p) h = h0 ++ [Message p m] -> silent h0 -> m_op m <> OpReset -> short_options (m_opts m) -> admitted m = true ->
  option_verdict (values 17 (m_opts m)) 0 (answer_type (m_op m)) 406 = c -> c <> 0 ->
  run bio bsearch qsort h (est_coap_init_req_array N) = Ok (rs, t) ->
  exists rs0 a, answers_to (mine p) h rs = rs0 ++ [(Some (code c), a)] /\ length rs0 = length h0 /\ calls a = [].
Proof. exact accept_format. Qed.
Print Assumptions C44_accept.

(** Wherever the server stands: an operation is called only for a message with
    acceptable formats. *)
Theorem C44_call_partial : forall bio bsearch qsort p m t r a t' op text,
  step bio bsearch qsort (Message p m) t = Ok (r, a, t') -> In (op, text) (calls a) -> short_options (m_opts m) -> m_op m <> OpReset ->
  (values 17 (m_opts m) = [] \/ values 17 (m_opts m) = [answer_type op])
  /\ (op <> OpCrts -> op <> OpAtt -> values 12 (m_opts m) = [286]).
Proof.
  intros bio bsearch qsort p m t r a t' op text S I SO Hr.
  destruct (coap_call bio bsearch qsort p m t r a t' op text S I SO) as (O & _ & A & P). subst op. split.
  - destruct A as [A|A]; [now left|right]. rewrite A. now destruct (m_op m).
  - intros H1 H2. destruct (m_op m); try congruence; now apply P.
Qed.
Print Assumptions C44_call_partial.
Definition with_opts (l : list (Z * bytes)) (m : message) : message :=
  {| m_op := m_op m; m_opts := l; m_block1 := m_block1 m; m_payload := m_payload m; m_ssl := m_ssl m; m_cert := m_cert m; m_env := m_env m; m_more2 := m_more2 m |}.
Example C44_case : map (fun l => replies [Message alice (with_opts l (post OpSen 0 0 csr EST_ERR_NONE))] 2)
    [[(12, [1; 30])]; []; [(12, [50])]; [(12, [1; 0; 0])]; [(12, [1; 30]); (12, [1; 30])]; [(12, [1; 30]); (17, [50])]; [(12, [1; 30]); (17, [1; 25])]]
  = map (fun r => Some [Some r]) [{| r_code := 231; r_body := None; r_block1 := Some 8 |}; code 402; code 400; code 402; code 402; code 406;
                          {| r_code := 231; r_body := None; r_block1 := Some 8 |}].
Proof. vm_compute. reflexivity. Qed.

(** Refuted: exactly the PKCS#10 media type.  An option value of five bytes is
    reduced modulo 2^32 (RFC 7252 allows two; libcoap does not refuse more). *)
Theorem C44_wrap_refuted : let m := with_opts [(12, [1; 0; 0; 1; 30])] (post OpSen 0 0 csr EST_ERR_NONE) in
  values 12 (m_opts m) = [4294967582]
  /\ replies [Message alice m] 2 = Some [Some {| r_code := 231; r_body := None; r_block1 := Some 8 |}].
Proof. split; vm_compute; reflexivity. Qed.
Print Assumptions C44_wrap_refuted.
(** Refuted: a wrong Accept option is always refused.  Once there is a stored
    response it is sent whatever the Accept option says. *)
Theorem C44_stored_refuted : let m := with_opts [(12, [1; 30]); (17, [50])] (post OpSen 0 1 csr EST_ERR_NONE) in
  replies [Message alice (post OpSen 0 0 csr EST_ERR_NONE); Message alice (post OpSen 0 1 csr EST_ERR_NONE); Message alice m] 2
  = Some (map (fun r => Some r) [{| r_code := 231; r_body := None; r_block1 := Some 8 |};
      {| r_code := 204; r_body := Some (281, der); r_block1 := None |}; {| r_code := 204; r_body := Some (281, der); r_block1 := None |}]).
Proof. vm_compute. reflexivity. Qed.
Print Assumptions C44_stored_refuted.

(** ** C62 *)
(** Wherever the server stands: an operation is called only over a TLS session,
    an enrollment only with a client certificate, and only the operation of the
    resource the message was sent to. *)
Theorem C62 : forall bio bsearch qsort p m t r a t' op text,
  step bio bsearch qsort (Message p m) t = Ok (r, a, t') -> In (op, text) (calls a) -> short_options (m_opts m) ->
  m_op m = op /\ m_ssl m = true /\ (op <> OpCrts -> op <> OpAtt -> m_cert m = true).
Proof.
  intros bio bsearch qsort p m t r a t' op text S I SO.
  destruct (coap_call bio bsearch qsort p m t r a t' op text S I SO) as (O & T & _ & P). split; [exact O|]. split; [exact T|].
  intros H1 H2. destruct op; try congruence; now apply P.
Qed.
Print Assumptions C62.
(** Without them an enrollment is answered 4.01 and nothing changes. *)
Theorem C62_refused : forall bio bsearch qsort p m t, enrolls (m_op m) -> short_options (m_opts m) -> values 12 (m_opts m) = [286] ->
  m_ssl m && m_cert m = false -> step bio bsearch qsort (Message p m) t = Ok (Some (code 401), [AEnd], t).
Proof. exact unauthenticated. Qed.
Print Assumptions C62_refused.
Example C62_case : exists r a t', step rfc_bio linear_search insertion_sort (Message alice (get OpCrts {| o_rc := EST_ERR_NONE; o_text := None; o_key := None |})) (est_coap_init_req_array 2) = Ok (r, a, t')
  /\ calls a = [(OpCrts, [])].
Proof. do 3 eexists. split; [vm_compute; reflexivity|reflexivity]. Qed.

(** ** C63 *)
(** The answer to a first GET, from what the CA certificate and CSR attribute
    functions return.  The answer to an enrollment is in C41_partial. *)
Theorem C63 : forall bio, b64_bio bio -> forall bsearch qsort, search_lib q_key bsearch qsort ->
  forall N ps h p h0 m rs t, peers_fit N ps h -> In p ps ->
  filter (mine p) h = h0 ++ [Message p m] -> silent h0 ->
  (m_op m = OpCrts \/ m_op m = OpAtt) -> m_ssl m = true -> short_options (m_opts m) ->
  (values 17 (m_opts m) = [] \/ values 17 (m_opts m) = [answer_type (m_op m)]) ->
  run bio bsearch qsort h (est_coap_init_req_array N) = Ok (rs, t) ->
  exists rs0 r a, answers_to (mine p) h rs = rs0 ++ [(Some r, a)] /\ length rs0 = length h0
    /\ calls a = [(m_op m, [])] /\ fetched (m_op m) (m_env m (m_op m) []) r.
Proof. exact coap_get. Qed.
Print Assumptions C63.
Definition found : outcome := {| o_rc := EST_ERR_NONE; o_text := Some (b64_encode der); o_key := None |}.
Definition failed (e : est_error) : outcome := {| o_rc := e; o_text := None; o_key := None |}.
Example C63_case : peers_fit 2 [alice; bob] [Connected alice; Message alice (get OpCrts found)]
  /\ map (fun o => replies [Connected alice; Message alice (get OpAtt o)] 2) [found; failed EST_ERR_NONE; failed EST_ERR_AUTH_FAIL; failed EST_ERR_MALLOC]
     = map (fun r => Some [None; Some r]) [{| r_code := 205; r_body := Some (285, der); r_block1 := None |}; code 205; code 401; code 500]
  /\ map (fun rc => option_map (fun l => last l None) (replies [Message alice (post OpSen 0 0 csr rc); Message alice (post OpSen 0 1 csr rc)] 2))
       [EST_ERR_NONE; EST_ERR_BAD_PKCS10; EST_ERR_AUTH_FAIL; EST_ERR_CA_ENROLL_RETRY; EST_ERR_MALLOC]
     = map (fun r => Some (Some r)) [{| r_code := 204; r_body := Some (281, der); r_block1 := None |}; code 400; code 401; code 503; code 500].
Proof. split; [apply two_peers; [lia|]; intros e [<-|[<-|[]]]; cbn; auto|]. split; vm_compute; reflexivity. Qed.

(** ** C64 *)
(** After the answer to an enrollment, further requests of the peer without
    payload (for the next response blocks) are answered with the same
    certificate, and the operation has been called once.
    Partial: key generation, and a response that does not start with a zero byte. *)
Theorem C64_partial : forall bio, b64_bio bio -> forall bsearch qsort, search_lib q_key bsearch qsort ->
  forall N ps h p op szx data h0 ms ks final more rs t text cert,
  peers_fit N ps h -> In p ps -> (op = OpSen \/ op = OpSren) -> 0 <= szx <= 6 -> 5 <= len data <= 16384 ->
  filter (mine p) h = h0 ++ map (Message p) (ms ++ [final]) ++ map (Message p) more ->
  (forall q m, In (Message q m) h0 -> plain m /\ m_op m <> OpReset) ->
  upload (last_block szx data) (-1) ks ->
  Forall2 (fun m k => posted op m /\ carries szx (fst k) data m) ms ks ->
  posted op final -> carries szx (last_block szx data) data final ->
  let o := m_env final op (b64_wrap (b64_encode data)) in
  o_rc o = EST_ERR_NONE -> o_text o = Some text -> text_of text cert -> all_bytes cert -> len cert <= 16384 -> cert <> [] -> nth 0 cert 0 <> 0 ->
  (forall m, In m more -> posted op m /\ m_payload m = []) ->
  run bio bsearch qsort h (est_coap_init_req_array N) = Ok (rs, t) ->
  exists before rest, answers_to (mine p) h rs = before ++ rest /\ length before = (length h0 + length ms)%nat
    /\ map fst rest = map (fun _ => Some {| r_code := 204; r_body := Some (281, cert); r_block1 := None |}) (final :: more)
    /\ concat (map (fun x => calls (snd x)) rest) = [(op, b64_wrap (b64_encode data))].
Proof. exact coap_repeated. Qed.
Print Assumptions C64_partial.
Definition ask_again : message := {| m_op := OpSen; m_opts := [(12, [1; 30])]; m_block1 := None; m_payload := [];
  m_ssl := true; m_cert := true; m_env := issue EST_ERR_AUTH_FAIL; m_more2 := false |}.
Example C64_case : posted OpSen ask_again
  /\ called [Message alice (post OpSen 0 0 csr EST_ERR_NONE); Message alice (post OpSen 0 1 csr EST_ERR_NONE); Message alice ask_again; Message alice ask_again] 2
     = Some [[]; [(OpSen, b64_wrap (b64_encode csr))]; []; []].
Proof. split; [constructor; try reflexivity; [exact short_post|now left]|]. vm_compute. reflexivity. Qed.

(** Refuted: a GET is answered with what there is now.  A second /crts on one
    session is answered with the response of the first. *)
Theorem C64_stale_refuted : let new := {| o_rc := EST_ERR_NONE; o_text := Some (b64_encode [49; 2; 5; 0]); o_key := None |} in
  replies [Message alice (get OpCrts found); Message alice (get OpCrts new)] 2
  = Some (map (fun r => Some r) [{| r_code := 205; r_body := Some (281, der); r_block1 := None |}; {| r_code := 205; r_body := Some (281, der); r_block1 := None |}]).
Proof. vm_compute. reflexivity. Qed.
Print Assumptions C64_stale_refuted.
(** Refuted: one call per upload.  A repeated last block after a refused
    enrollment calls the operation again. *)
Theorem C64_failed_refuted :
  called [Message alice (post OpSen 0 0 csr EST_ERR_AUTH_FAIL); Message alice (post OpSen 0 1 csr EST_ERR_AUTH_FAIL); Message alice (post OpSen 0 1 csr EST_ERR_AUTH_FAIL)] 2
  = Some [[]; [(OpSen, b64_wrap (b64_encode csr))]; [(OpSen, b64_wrap (b64_encode csr))]].
Proof. vm_compute. reflexivity. Qed.
Print Assumptions C64_failed_refuted.
