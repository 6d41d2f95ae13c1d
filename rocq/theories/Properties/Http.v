(** C01-C08 and C49: the HTTP front end of the server. *)
From Coq Require Import String ZArith List Bool Lia.
From Verif Require Import Base Model.CLib Model.HttpServer Spec.Http Spec.Uri
  Proofs.HttpParse Proofs.HttpConn Proofs.HttpUri Proofs.HttpRender.
Import ListNotations.
Open Scope Z_scope.

(** ** C01 *)
(** A head of [n] bytes is recognised exactly when the first [n] bytes are the
    shortest prefix that ends with an empty line and contain no forbidden byte. *)
Theorem C01_complete : forall l n, 0 < n -> (get_request_len l = n <-> complete_head l n).
Proof. exact get_request_len_complete. Qed.
Print Assumptions C01_complete.

Theorem C01_malformed : forall l, all_bytes l -> (get_request_len l = -1 <-> malformed_head l).
Proof. exact get_request_len_malformed. Qed.
Print Assumptions C01_malformed.

(** A decision is never revised by later bytes. *)
Theorem C01_stable : forall l more, get_request_len l <> 0 ->
  get_request_len (l ++ more) = get_request_len l.
Proof. exact get_request_len_app. Qed.
Print Assumptions C01_stable.

(** The whole behaviour of a connection (events and final state of the EST
    layer, for any EST layer) depends only on the byte stream, not on how the
    network cut it into pieces; and it never has undefined behaviour. *)
Theorem C01_chunks : forall S0 (handler : S0 -> est_req -> S0 * Z) ka s w1 w2,
  concat w1 = concat w2 ->
  process_new_connection S0 handler ka s w1 = process_new_connection S0 handler ka s w2
  /\ process_new_connection S0 handler ka s w1 <> UB.
Proof.
  intros S0 handler ka s w1 w2 E. rewrite !process_new_connection_spec, E. split; [reflexivity|discriminate].
Qed.
Print Assumptions C01_chunks.

Example C01_ex1 : get_request_len (str "GET / HTTP/1.1" ++ [13; 10; 13; 10] ++ str "xyz") = 18.
Proof. reflexivity. Qed.
Example C01_ex2 : get_request_len (str "GET" ++ [1; 65]) = -1 /\ all_bytes (str "GET" ++ [1; 65]).
Proof. split; [reflexivity|]. repeat constructor; unfold is_byte; cbn; lia. Qed.

(** ** C02 *)
(** For any buffer contents: parsing does not leave the buffer, leaves
    everything after the head untouched, reports at most 64 headers, and every
    reported offset holds a string that is a piece of the head. *)
Theorem C02_safe : forall buf buflen, 0 <= buflen <= len buf ->
  exists rl r, parse_http_message buf buflen = Ok (rl, r) /\
  match r with
  | None => rl <= 0
  | Some (m, ri) =>
    0 < rl <= buflen /\ len m = len buf /\ skipn (Z.to_nat rl) m = skipn (Z.to_nat rl) buf
    /\ len (ri_headers ri) <= 64
    /\ forall o, In o (ri_method ri :: ri_uri ri :: ri_version ri
                       :: flat_map (fun p => [fst p; snd p]) (ri_headers ri)) ->
         exists t, cstr_at m o = Ok t /\ sub_bytes t (firstn (Z.to_nat rl) buf)
  end.
Proof. exact parse_http_message_safe. Qed.
Print Assumptions C02_safe.

(** A request as a client writes it is parsed back exactly. *)
Theorem C02_exact : forall meth uri ver hs rest,
  (meth = str "GET" \/ meth = str "POST") -> token uri ->
  (ver = str "HTTP/1.0" \/ ver = str "HTTP/1.1") ->
  Forall (fun h => header_name (fst h) /\ header_value (snd h)) hs -> len hs <= 64 ->
  let buf := render_head meth uri ver hs ++ rest in
  parse_http_request buf (len buf)
  = Ok (Some (len (render_head meth uri ver hs),
              {| hr_method := meth; hr_uri := uri; hr_version := skipn 5 ver; hr_headers := hs |})).
Proof. exact parse_rendered. Qed.
Print Assumptions C02_exact.

Example C02_ex : exists hs, len hs = 2 /\ Forall (fun h => header_name (fst h) /\ header_value (snd h)) hs
  /\ token (str "/.well-known/est/simpleenroll").
Proof.
  exists [(str "Host", str "a b"); (str "Content-Length", str "12")].
  split; [reflexivity|]. split.
  - repeat constructor; cbn; try discriminate; try lia; unfold token_byte; try lia;
      intro H; repeat (destruct H as [H|H]; [discriminate|]); destruct H.
  - split; [discriminate|]. repeat constructor; unfold token_byte; cbn; lia.
Qed.

(** ** C03 *)
Theorem C03_exact : forall u, normal_form u (remove_double_dots_and_double_slashes u)
  /\ forall v, normal_form u v -> v = remove_double_dots_and_double_slashes u.
Proof. exact rm_dots_exact. Qed.
Print Assumptions C03_exact.

Theorem C03_clean : forall u,
  clean (remove_double_dots_and_double_slashes u)
  /\ len (remove_double_dots_and_double_slashes u) <= len u
  /\ remove_double_dots_and_double_slashes (remove_double_dots_and_double_slashes u)
     = remove_double_dots_and_double_slashes u
  /\ (clean u -> remove_double_dots_and_double_slashes u = u).
Proof. exact rm_dots_clean. Qed.
Print Assumptions C03_clean.

Example C03_ex : remove_double_dots_and_double_slashes (str "/a//../\..b/...c") = str "/a/b/.c".
Proof. reflexivity. Qed.

(** The URI the EST layer sees, for request URIs of up to 272 bytes: query cut
    off, percent-decoded, cut at an encoded NUL, normalised. *)
Theorem C03_uri : forall u, len u <= 272 -> exists v,
  handle_uri u = Ok v /\
  exists q d z, cut_at 63 u q /\ pct_decodes q d /\ cut_at 0 d z /\ normal_form z v.
Proof. exact handle_uri_meaning. Qed.
Print Assumptions C03_uri.

(** For request URIs of any length. *)
Theorem C03_uri_any : forall u, exists v, handle_uri u = Ok v /\ clean v /\ len v <= 272 /\ len v <= len u.
Proof. exact handle_uri_any. Qed.
Print Assumptions C03_uri_any.

(** ** C04 *)
Theorem C04_exact : forall s, exists r,
  url_decode s (len s) (len s + 1) false = Ok (r, len r)
  /\ forall t, pct_decodes s t <-> t = r.
Proof. exact url_decode_iff. Qed.
Print Assumptions C04_exact.

Theorem C04_roundtrip : forall s, all_bytes s ->
  url_decode (pct_encode s) (len (pct_encode s)) (len (pct_encode s) + 1) false = Ok (s, len s).
Proof. exact url_decode_roundtrip. Qed.
Print Assumptions C04_roundtrip.

(** Any destination size [dl]: at most [dl] bytes including the NUL are written. *)
Theorem C04_bounded : forall s sl dl f, 0 <= sl <= len s -> 1 <= dl ->
  exists r n, url_decode s sl dl f = Ok (r, n) /\ len r + 1 <= dl /\ len r <= sl /\ (n = -1 \/ n = len r).
Proof. exact url_decode_bounds. Qed.
Print Assumptions C04_bounded.

Example C04_ex : all_bytes [0; 37; 255] /\ pct_encode [0; 37; 255] = str "%00%25%ff".
Proof. split; [repeat constructor; unfold is_byte; lia|reflexivity]. Qed.

(** ** C05 *)
(** Whatever was received, every dispatched request has no body or an announced
    length in 0..8192. *)
Theorem C05_limit : forall S0 (handler : S0 -> est_req -> S0 * Z) ka s w evs s' r st,
  process_new_connection S0 handler ka s w = Ok (evs, s') -> In (EvServed r st) evs ->
  er_body r = None \/ exists n b, er_body r = Some (n, b) /\ 0 <= n <= 8192 /\ len b <= n.
Proof. exact served_body_limit. Qed.
Print Assumptions C05_limit.

(** A request with an unusable length is answered with an error; the EST layer
    is not run (its state is unchanged, no request was served). *)
Theorem C05_rejected : forall S0 (handler : S0 -> est_req -> S0 * Z) ka s w meth uri ver hs rest code,
  (meth = str "GET" \/ meth = str "POST") -> token uri -> (hd 0 uri = 47 \/ uri = str "*") ->
  (ver = str "HTTP/1.0" \/ ver = str "HTTP/1.1") -> len hs <= 64 ->
  Forall (fun h => header_name (fst h) /\ header_value (snd h)) hs ->
  len (render_head meth uri ver hs) <= 16384 ->
  ((meth = str "POST" /\ no_header hs (str "Content-Length") /\ code = 400)
   \/ (exists v n, first_header hs (str "Content-Length") v /\ decimal v n /\ 8192 < n /\ code = 413)
   \/ (exists v n, first_header hs (str "Content-Length") (45 :: v) /\ decimal v n /\ 0 < n /\ code = 400)) ->
  concat w = render_head meth uri ver hs ++ rest ->
  process_new_connection S0 handler ka s w = Ok ([EvError code], s).
Proof. exact bad_length_rejected. Qed.
Print Assumptions C05_rejected.

Example C05_ex : decimal (str "8193") 8193
  /\ first_header [(str "content-LENGTH", str "8193")] (str "Content-Length") (str "8193").
Proof.
  split.
  - split; [discriminate|]. split; [repeat constructor; cbn; lia|reflexivity].
  - exists [], (str "content-LENGTH"), []. repeat split; constructor.
Qed.

(** ** C06 *)
(** For an allowed request followed by any bytes [rest]: the EST layer is given
    exactly that request and body, and the connection then behaves as if it had
    just been opened with [rest] as its stream - or is closed. *)
Theorem C06_cut : forall S0 (handler : S0 -> est_req -> S0 * Z) ka s w meth uri ver hs body rest,
  allowed_request meth uri ver hs body -> len uri <= 272 ->
  concat w = render_head meth uri ver hs ++ body ++ rest ->
  exists r,
    er_method r = meth /\ er_headers r = hs
    /\ (exists q d z, cut_at 63 uri q /\ pct_decodes q d /\ cut_at 0 d z /\ normal_form z (er_uri r))
    /\ (er_body r = None /\ body = [] \/ er_body r = Some (len body, body))
    /\ let st := snd (handler s r) in
       let s' := fst (handler s r) in
       (stays_open ka st hs ver ->
        exists evs s'', process_new_connection S0 handler ka s' [rest] = Ok (evs, s'')
          /\ process_new_connection S0 handler ka s w = Ok (EvServed r st :: evs, s''))
       /\ (~ stays_open ka st hs ver ->
           process_new_connection S0 handler ka s w = Ok ([EvServed r st], s')).
Proof. exact allowed_served_spec. Qed.
Print Assumptions C06_cut.

Example C06_ex : allowed_request (str "POST") (str "/x") (str "HTTP/1.1")
  [(str "Content-Length", str "3")] (str "abc") /\ stays_open true 200 [(str "Content-Length", str "3")] (str "HTTP/1.1").
Proof.
  split.
  - repeat split; auto; try discriminate; try (cbn; lia).
    + repeat constructor; unfold token_byte; cbn; lia.
    + repeat constructor; cbn; try discriminate; try lia; unfold token_byte; try lia;
      intro H; repeat (destruct H as [H|H]; [discriminate|]); destruct H.
    + right. exists (str "3"). repeat split; try discriminate.
      exists [], (str "Content-Length"), []. repeat split; constructor.
      repeat constructor; cbn; lia.
  - repeat split; try lia. right. split; [|reflexivity]. constructor; [|constructor]. intro H. discriminate H.
Qed.

(** ** C07 *)
(** No event follows a response with status 202 or at least 400, nor any
    response when keep-alive is disabled. *)
Theorem C07_closed : forall S0 (handler : S0 -> est_req -> S0 * Z) ka s w evs s' pre ev post,
  process_new_connection S0 handler ka s w = Ok (evs, s') -> evs = pre ++ ev :: post ->
  ka = false \/ ev_status ev = 202 \/ 400 <= ev_status ev -> post = [].
Proof. exact events_close. Qed.
Print Assumptions C07_closed.

(** The decision table. *)
Theorem C07_table : forall ka st hs ver, (ver = str "HTTP/1.0" \/ ver = str "HTTP/1.1") ->
  (should_keep_alive false st ka (get_header hs (str "Connection")) (Some (skipn 5 ver)) = true
   <-> stays_open ka st hs ver).
Proof. exact should_keep_alive_spec. Qed.
Print Assumptions C07_table.

(** ** C08 *)
Theorem C08_found : forall hs name v, get_header hs name = Some v <-> first_header hs name v.
Proof. exact get_header_first. Qed.
Print Assumptions C08_found.
Theorem C08_absent : forall hs name, get_header hs name = None <-> no_header hs name.
Proof. exact get_header_none. Qed.
Print Assumptions C08_absent.
Example C08_ex : get_header [(str "a", [1]); (str "HOST", [2]); (str "host", [3])] (str "Host") = Some [2].
Proof. reflexivity. Qed.

(** ** C49 *)
(** Full claim: the body handed to an operation consists of received bytes.
    It is false: when the connection fails while a body is being read, the
    operation is run with the announced length although fewer bytes arrived
    (the rest of the buffer is uninitialised memory). *)
Theorem C49_refuted : exists w r st evs,
  process_new_connection unit (fun s _ => (s, 200)) true tt w = Ok (EvServed r st :: evs, tt)
  /\ exists n b, er_body r = Some (n, b) /\ len b < n.
Proof. exact short_body_served. Qed.
Print Assumptions C49_refuted.

(** What holds: the bytes that are there are a contiguous piece of the stream,
    and a body is short only if the stream ended inside it. *)
Theorem C49_partial : forall S0 (handler : S0 -> est_req -> S0 * Z) ka s w evs s' r st n b,
  process_new_connection S0 handler ka s w = Ok (evs, s') -> In (EvServed r st) evs ->
  er_body r = Some (n, b) ->
  exists a c, concat w = a ++ b ++ c /\ (len b < n -> c = []).
Proof. exact served_body_from. Qed.
Print Assumptions C49_partial.
