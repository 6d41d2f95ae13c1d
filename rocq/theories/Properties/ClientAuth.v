(** C61: the client's reading of challenges.  Read with Spec/Challenge.v,
    Spec/Client.v, Spec/Http.v and Spec/Server.v.

    [k_mode], [k_realm], [k_nonce], [k_err] and [k_desc] are the scheme, realm,
    nonce and token error the client's context remembers for its next request. *)
From Coq Require Import String ZArith List Bool Lia ZifyBool ZifyNat.
From Verif Require Import Base Spec.Http Spec.Server Spec.Client Spec.Challenge Model.CLib Model.EstErr Model.HttpServer Model.Uri Model.AuthHdr Model.Server Model.ClientHttp
  Proofs.HttpParse Proofs.ServerReply Proofs.ClientHeaders Proofs.ClientHttp Proofs.ClientRender Proofs.ClientChallenge.
Import ListNotations.
Open Scope Z_scope.

(** A 401 response [d] with headers [hs], as a server writes it, arrives at a
    client that has not yet answered a challenge. *)
Definition challenged (evs : list net) (d : bytes) (hs : list (bytes * bytes)) (c : cctx) : Prop :=
  arrives evs d /\ (exists body, response d 401 hs body /\ clean_head d body /\ no_leading_newline body) /\ plain_headers hs /\ len d <= 1999955
  /\ (k_mode c = AUTH_NONE \/ k_mode c = AUTH_FAIL).
Definition scheme (s : bytes) (m : auth_mode) : Prop :=
  In (s, m) [(str "Basic", AUTH_BASIC); (str "Digest", AUTH_DIGEST); (str "Bearer", AUTH_TOKEN)].

(** The first WWW-Authenticate header decides.  If it names one of the three
    schemes and its parameters are understood, the client takes over the scheme,
    the realm, the nonce and the token error, each from the last parameter of
    that name, and nothing else changes.  Partial: values are cut at 255 octets
    (the nonce at 64), and see the refutations below. *)
Theorem C61_partial : forall evs d hs op c sc m s ps g, challenged evs d hs c -> scheme sc m ->
  first_starting hs (str "WWW-Authenticate") (sc ++ s ++ g) -> parameters s ps -> understood ps -> blanks g ->
  exists c', est_io_get_response evs op c = Ok (EST_ERR_AUTH_FAIL, Untouched, c')
  /\ k_mode c' = m
  /\ k_realm c' = noted 255 "realm" ps (k_realm c) /\ k_nonce c' = noted 64 "nonce" ps (k_nonce c)
  /\ k_err c' = noted 255 "error" ps (k_err c) /\ k_desc c' = noted 255 "error_description" ps (k_desc c)
  /\ k_delay c' = k_delay c /\ k_status c' = 401.
Proof.
  intros evs d hs op c sc m s ps g (A & (body & R & H0 & Hb) & Hp & L & Mu) I Hf P U Hg.
  eexists. split; [eapply (challenge_read evs d hs body op c) with (ps := ps); eauto|cbn; auto 10].
  - destruct Mu as [->| ->]; reflexivity.
  - now apply seps_blanks.
Qed.

(** No such header, or another scheme: the client reports that it cannot
    authenticate and learns nothing. *)
Theorem C61_no_scheme : forall evs d hs op c, challenged evs d hs c ->
  Forall (fun h => forall t, fst h <> str "WWW-Authenticate" ++ t) hs
  \/ (exists value, first_starting hs (str "WWW-Authenticate") value /\ forall sc m t, scheme sc m -> value <> sc ++ t) ->
  est_io_get_response evs op c = Ok (EST_ERR_AUTH_FAIL, Untouched, set_mode AUTH_FAIL (set_status 401 c)).
Proof.
  intros evs d hs op c (A & (body & R & H0 & Hb) & Hp & L & Mu) H. assert (Mu' : mode_used (k_mode c) = false) by (destruct Mu as [->| ->]; reflexivity).
  destruct H as [H|(value & Hf & N)].
  - exact (challenge_none evs d hs body op c A R H0 Hp Hb L Mu' H).
  - exact (challenge_other evs d hs body op c A R H0 Hp Hb L Mu' value Hf N).
Qed.
(** A hash other than MD5: the client reports that it cannot authenticate. *)
Theorem C61_algorithm : forall evs d hs op c sc m s ps g n a b v w t, challenged evs d hs c -> scheme sc m ->
  first_starting hs (str "WWW-Authenticate") (sc ++ s ++ g ++ n ++ a ++ str "=" ++ b ++ w ++ t) ->
  parameters s ps -> understood ps -> spacing g -> word n -> blanks a -> blanks b -> written v w ->
  case_eq n (str "algorithm") -> the_value v <> [] -> ~ case_eq (the_value v) (str "md5") -> (t = [] \/ In (hd 0 t) [32; 9; 44]) ->
  exists c', est_io_get_response evs op c = Ok (EST_ERR_AUTH_FAIL, Untouched, c') /\ k_mode c' = AUTH_FAIL /\ k_nonce c' = [].
Proof.
  intros evs d hs op c sc m s ps g n a b v w t (A & (body & R & H0 & Hb) & Hp & L & Mu) I Hf P U Hg Hn Ha Hbl W C Nv M Ht.
  assert (Mu' : mode_used (k_mode c) = false) by (destruct Mu as [->| ->]; reflexivity).
  apply (challenge_algorithm evs d hs body op c A R H0 Hp Hb L Mu' sc m s ps g n a b v w t); auto.
  - unfold called. cbn [fst]. rewrite C. reflexivity.
  - destruct Ht as [->|Ht]; [now left|]. right. destruct t as [|x t]; [cbn in Ht; lia|]. exists x, t. split; [reflexivity|]. cbn [hd In] in Ht. unfold field_sep, isspace. lia.
Qed.
(** The last parameter lacks its value: likewise. *)
Theorem C61_no_value : forall evs d hs op c sc m s ps g n b e, challenged evs d hs c -> scheme sc m ->
  first_starting hs (str "WWW-Authenticate") (sc ++ s ++ g ++ n ++ b) -> parameters s ps -> understood ps -> spacing g ->
  word n -> (exists x, In x used_names /\ case_eq n (str x)) -> blanks e -> (b = e \/ b = str "=" ++ e) ->
  exists c', est_io_get_response evs op c = Ok (EST_ERR_AUTH_FAIL, Untouched, c') /\ k_mode c' = AUTH_FAIL /\ k_nonce c' = [].
Proof.
  intros evs d hs op c sc m s ps g n b e (A & (body & R & H0 & Hb) & Hp & L & Mu) I Hf P U Hg Hn C Se Eb.
  assert (Mu' : mode_used (k_mode c) = false) by (destruct Mu as [->| ->]; reflexivity).
  apply (challenge_short evs d hs body op c A R H0 Hp Hb L Mu' sc m s ps g n b); auto.
  destruct Eb as [->| ->]; [now apply seps_blanks|]. constructor; [reflexivity|now apply seps_blanks].
Qed.

Section S.
Context {cert csr key E : Type}.
Variable C : @config cert.
Variable A : @app cert key E.
(** What this library's server sends is read back exactly: its scheme, realm
    and (Digest) nonce. *)
Theorem C61_end_to_end : forall s w r evs op c, Spec.Server.challenges C -> mg_send_authorization_request C A s = (w, r) -> arrives evs (sent w) ->
  quotable (c_realm C) -> len (c_realm C) <= 255 -> quotable (a_time A (s_env s)) -> len (a_time A (s_env s)) <= 64 ->
  k_mode c = AUTH_NONE \/ k_mode c = AUTH_FAIL ->
  exists c', est_io_get_response evs op c = Ok (EST_ERR_AUTH_FAIL, Untouched, c')
  /\ k_mode c' = c_auth_mode C /\ k_realm c' = c_realm C
  /\ k_nonce c' = match c_auth_mode C with AUTH_DIGEST => a_time A (s_env s) | _ => k_nonce c end.
Proof.
  intros s w r evs op c Hm H Ar Qr Lr Qt Lt Mu. apply (challenge_end_to_end C A s w r); auto. destruct Mu as [->| ->]; reflexivity.
Qed.
End S.

(** ** Refutations *)
Definition with_challenge (v : bytes) : bytes := str "HTTP/1.1 401 Unauthorized" ++ CRLF ++ concat (map render_header [(str "WWW-Authenticate", v)]) ++ CRLF.
Definition ctx0 : cctx := {| k_mode := AUTH_NONE; k_realm := []; k_nonce := []; k_err := []; k_desc := []; k_delay := 0; k_status := 0 |}.
Lemma with_challenged : forall v, plain_header (str "WWW-Authenticate", v) -> len v <= 1000 ->
  challenged [Data (with_challenge v); Data []] (with_challenge v) [(str "WWW-Authenticate", v)] ctx0.
Proof.
  intros v Hv L. pose proof Hv as (_ & _ & V3 & _). cbn [snd] in V3. split; [|split; [|split; [|split]]].
  - exists [with_challenge v], []. repeat split; [|cbn [concat]; apply app_nil_r]. constructor; [discriminate|constructor].
  - exists []. split; [|split; [|split; discriminate]].
    + exists (str "401"), (str "Unauthorized"). split; [num|]. split; [reflexivity|]. split; [line|]. split.
      * constructor; [split; [line|]|constructor]. cbn [snd]. revert V3. apply Forall_impl. cbn. intros; lia.
      * rewrite app_nil_r. reflexivity.
    + exists (with_challenge v). rewrite app_nil_r. split; [reflexivity|]. unfold with_challenge, render_header. cbn [map concat fst snd]. intro J. rewrite !in_app_iff in J.
      assert (P : forall l, forallb (fun c => negb (c =? 0)) l = true -> ~ In 0 l) by (intros l Hf; now apply no_nul_lit).
      rewrite Forall_forall in V3. assert (P0 : ~ In 0 v) by (intro Q; apply (V3 _ Q); now left).
      repeat match goal with H : _ \/ _ |- _ => destruct H as [H|H] end; try contradiction; revert J; apply P; reflexivity.
  - split; [change (len [(str "WWW-Authenticate", v)]) with 1; lia|]. now constructor.
  - unfold with_challenge, render_header, CRLF. cbn [map concat fst snd]. rewrite !len_app.
    change (len (str "HTTP/1.1 401 Unauthorized")) with 25. change (len (str "WWW-Authenticate")) with 16. change (len (str ": ")) with 2. change (len [13; 10]) with 2. change (len (@nil Z)) with 0. lia.
  - now left.
Qed.
Lemma plain_lit : forall v, forallb (fun c => negb (existsb (Z.eqb c) [0; 10; 13])) v = true -> hd 0 v <> 32 -> plain_header (str "WWW-Authenticate", v).
Proof.
  intros v F N. split; [discriminate|]. split.
  - rewrite Forall_forall. intros x I Q. cbn in I, Q. lia.
  - split; [|exact N]. rewrite Forall_forall. rewrite forallb_forall in F. intros x I Q. cbn [snd] in I. specialize (F x I). cbn in Q, F. lia.
Qed.
Ltac refute sc m x s :=
  match goal with |- exists c', est_io_get_response [Data (with_challenge ?v); _] ?op ?c = _ /\ _ =>
    let H := fresh in assert (H : plain_header (str "WWW-Authenticate", v)) by (apply plain_lit; [reflexivity|discriminate]);
    destruct (with_challenged v H ltac:(vm_compute; discriminate)) as (A & (body & R & H0 & Hb) & Hp & L & Mu);
    destruct (challenge_tokens _ _ _ body op c A R H0 Hp Hb L eq_refl sc m x s) as (q & _ & Q);
    [cbn; auto | exists [], (str "WWW-Authenticate"), [], []; split; [reflexivity|]; split; [reflexivity|constructor] | reflexivity |];
    eexists; split; [eapply Q; clear Q; cbn; reflexivity | cbn; auto] end.

(** The value of a parameter the client does not know is read as a name: here
    the nonce is "nonce", not "abc". *)
Definition q (s : string) : bytes := [34] ++ str s ++ [34].
Theorem C61_foreign_refuted : exists c',
  est_io_get_response [Data (with_challenge (str "Digest opaque=" ++ q "nonce" ++ str ", nonce=" ++ q "abc")); Data []] OP_SIMPLE_ENROLL ctx0
    = Ok (EST_ERR_AUTH_FAIL, Untouched, c') /\ k_mode c' = AUTH_DIGEST /\ k_nonce c' = str "nonce".
Proof. refute (str "Digest") AUTH_DIGEST 32 (str "opaque=" ++ q "nonce" ++ str ", nonce=" ++ q "abc"). Qed.
(** So is an empty value: here the realm is "nonce". *)
Theorem C61_empty_refuted : exists c',
  est_io_get_response [Data (with_challenge (str "Digest opaque=" ++ q "" ++ str ", nonce=" ++ q "abc")); Data []] OP_SIMPLE_ENROLL ctx0
    = Ok (EST_ERR_AUTH_FAIL, Untouched, c') /\ k_mode c' = AUTH_DIGEST /\ k_realm c' = str "nonce" /\ k_nonce c' = [].
Proof. refute (str "Digest") AUTH_DIGEST 32 (str "opaque=" ++ q "" ++ str ", nonce=" ++ q "abc"). Qed.
(** The backslash of an escaped character is taken for part of the value. *)
Theorem C61_escape_refuted : exists c',
  est_io_get_response [Data (with_challenge (str "Basic realm=" ++ [34] ++ [97; 92; 34; 98] ++ [34])); Data []] OP_SIMPLE_ENROLL ctx0
    = Ok (EST_ERR_AUTH_FAIL, Untouched, c') /\ k_mode c' = AUTH_BASIC /\ k_realm c' = [97; 92; 34; 98].
Proof. refute (str "Basic") AUTH_BASIC 32 (str "realm=" ++ [34] ++ [97; 92; 34; 98] ++ [34]). Qed.
(** A scheme is recognised by its first letters only. *)
Theorem C61_scheme_refuted : exists c',
  est_io_get_response [Data (with_challenge (str "Basically realm=" ++ q "r")); Data []] OP_SIMPLE_ENROLL ctx0
    = Ok (EST_ERR_AUTH_FAIL, Untouched, c') /\ k_mode c' = AUTH_BASIC.
Proof.
  destruct (with_challenged (str "Basically realm=" ++ q "r")) as (A & (body & R & H0 & Hb) & Hp & L & Mu); [apply plain_lit; [reflexivity|discriminate]|vm_compute; discriminate|].
  destruct (response_401 _ _ OP_SIMPLE_ENROLL ctx0 _ body A R H0 Hp Hb L eq_refl) as (m1 & os & F & T & G).
  destruct (request_first m1 _ os _ (set_status 401 ctx0) (str "Basically realm=" ++ q "r") F) as (v & Hv & Bv & Ev).
  { exists [], (str "WWW-Authenticate"), [], []. split; [reflexivity|]. split; [reflexivity|constructor]. }
  cbv zeta in Ev. change (prefixb (str "Basic") (str "Basically realm=" ++ q "r")) with true in Ev. cbv iota in Ev.
  destruct (has_text_skip _ _ _ Hv) as (z & Ez & _ & _). rewrite Ez in Ev. eexists. split; [apply G; rewrite Ev; cbn; reflexivity|reflexivity].
Qed.

(** ** A case *)
Example C61_one : exists c',
  est_io_get_response [Data (with_challenge (str "Digest qop=" ++ q "auth" ++ str ", Realm = " ++ q "est realm" ++ str ",nonce=" ++ q "12ab" ++ str " ,stale=false")); Data []] OP_CACERTS ctx0
    = Ok (EST_ERR_AUTH_FAIL, Untouched, c') /\ k_mode c' = AUTH_DIGEST /\ k_realm c' = str "est realm" /\ k_nonce c' = str "12ab".
Proof.
  match goal with |- exists c', est_io_get_response [Data (with_challenge ?v); _] ?op ?c = _ /\ _ =>
  destruct (C61_partial [Data (with_challenge v); Data []] (with_challenge v) [(str "WWW-Authenticate", v)] op c
    (str "Digest") AUTH_DIGEST (str " qop=" ++ q "auth" ++ str ", Realm = " ++ q "est realm" ++ str ",nonce=" ++ q "12ab" ++ str " ,stale=false")
    [(str "qop", Quoted (str "auth")); (str "Realm", Quoted (str "est realm")); (str "nonce", Quoted (str "12ab")); (str "stale", Bare (str "false"))] [])
    as (c' & H & M & Rl & Nc & _) end.
  - apply with_challenged; [apply plain_lit; [reflexivity|discriminate]|vm_compute; discriminate].
  - cbn. auto.
  - exists [], (str "WWW-Authenticate"), [], []. split; [reflexivity|]. split; [reflexivity|constructor].
  - assert (G : forall l, forallb (fun c => (c =? 32) || (c =? 9) || (c =? 44)) l = true -> l <> [] -> spacing l).
    { intros l F N. split; [exact N|]. apply Forall_forall. intros x I. rewrite forallb_forall in F. specialize (F x I). lia. }
    refine (one_parameter (str " ") (str "qop") [] [] (Quoted (str "auth")) (q "auth") _ _ _ _ _ _ _ _);
      [apply G; [reflexivity|discriminate]|now apply word_lit|constructor|constructor|split; [now apply quot_lit|reflexivity]|].
    refine (one_parameter (str ", ") (str "Realm") (str " ") (str " ") (Quoted (str "est realm")) (q "est realm") _ _ _ _ _ _ _ _);
      [apply G; [reflexivity|discriminate]|now apply word_lit|constructor; [now left|constructor]|constructor; [now left|constructor]|split; [now apply quot_lit|reflexivity]|].
    refine (one_parameter (str ",") (str "nonce") [] [] (Quoted (str "12ab")) (q "12ab") _ _ _ _ _ _ _ _);
      [apply G; [reflexivity|discriminate]|now apply word_lit|constructor|constructor|split; [now apply quot_lit|reflexivity]|].
    refine (one_parameter (str " ,") (str "stale") [] [] (Bare (str "false")) (str "false") [] [] _ _ _ _ _ no_parameters);
      [apply G; [reflexivity|discriminate]|now apply word_lit|constructor|constructor|split; [now apply word_lit|reflexivity]].
  - apply Forall_cons; [left; exists "qop"%string; split; [right; right; now left|reflexivity]|].
    apply Forall_cons; [left; exists "realm"%string; split; [now left|reflexivity]|].
    apply Forall_cons; [left; exists "nonce"%string; split; [right; now left|reflexivity]|].
    apply Forall_cons; [right; right|apply Forall_nil]. split; [discriminate|]. repeat (apply Forall_cons; [split; [reflexivity|discriminate]|]). apply Forall_nil.
  - constructor.
  - exists c'. split; [exact H|]. auto.
Qed.

Print Assumptions C61_partial.
Print Assumptions C61_no_scheme.
Print Assumptions C61_algorithm.
Print Assumptions C61_no_value.
Print Assumptions C61_end_to_end.
Print Assumptions C61_foreign_refuted.
Print Assumptions C61_empty_refuted.
Print Assumptions C61_escape_refuted.
Print Assumptions C61_scheme_refuted.
