(** The server's HTTP front end understands the requests the client writes. *)
From Coq Require Import String ZArith List Bool Lia ZifyBool ZifyNat.
From Verif Require Import Base Spec.Http Spec.Uri Spec.UriPath Spec.Base64 Spec.Auth Spec.Requests Model.CLib Model.EstErr Model.Uri Model.HttpServer Model.AuthHdr Model.ClientHttp Model.Client
  Proofs.Codec Proofs.AuthHdr Proofs.AuthDigest Proofs.HttpRender Proofs.ServerReply Proofs.ClientModes Proofs.ClientCalls Proofs.RelayCourse.
Import ListNotations.
Open Scope Z_scope.

(** ** The URI *)
Lemma in_dec_Z : forall (x : Z) l, In x l \/ ~ In x l.
Proof. intros x l. destruct (in_dec Z.eq_dec x l); auto. Qed.
Lemma pct_same : forall u d, ~ In 37 u -> pct_decodes u d -> d = u.
Proof.
  intros u d N H. induction H.
  - reflexivity.
  - exfalso. apply N. now left.
  - f_equal. apply IHpct_decodes. intro I. apply N. now right.
Qed.
Lemma cut_same : forall c u v, ~ In c u -> cut_at c u v -> v = u.
Proof. intros c u v N [_ [E|[t E]]]; [now symmetry|]. exfalso. apply N. rewrite E, in_app_iff. right. now left. Qed.
Lemma normal_same : forall u v, clean u -> normal_form u v -> v = u.
Proof.
  intros u v C H. induction H.
  - reflexivity.
  - f_equal. apply IHnormal_form. intros a x b E S. apply (C (c :: a) x b); [rewrite E; reflexivity|exact S].
  - assert (G : g = []).
    { destruct g as [|x g]; [reflexivity|]. exfalso. apply (C [] c ((x :: g) ++ t)); [reflexivity|exact H|].
      inversion H0; subst; [left; eexists _, _; split; [reflexivity|assumption]|right; eexists; reflexivity]. }
    subst g. cbn [Datatypes.app] in *. f_equal. apply IHnormal_form. intros a x b E S. apply (C (c :: a) x b); [rewrite E; reflexivity|exact S].
Qed.
Lemma uri_same : forall u v, ~ In 63 u -> ~ In 37 u -> ~ In 0 u -> clean u ->
  (exists q d z, cut_at 63 u q /\ pct_decodes q d /\ cut_at 0 d z /\ normal_form z v) -> v = u.
Proof.
  intros u v N1 N2 N3 C (q & d & z & A & B & D & E). apply cut_same in A; [|exact N1]. subst q.
  apply pct_same in B; [|exact N2]. subst d. apply cut_same in D; [|exact N3]. subst z. exact (normal_same _ _ C E).
Qed.

(** Separators in a text without them followed by one. *)
Lemma clean_nosep : forall u, ~ In 47 u -> ~ In 92 u -> clean u.
Proof. intros u A B a c b E [S|S]; subst c; exfalso; [apply A|apply B]; rewrite E, in_app_iff; right; now left. Qed.
Lemma clean_join : forall x u, ~ In 47 x -> ~ In 92 x -> clean u -> clean (x ++ u).
Proof.
  induction x as [|y x IH]; intros u A B C; [exact C|]. intros a c b E S. destruct a as [|z a].
  - cbn in E. injection E as E1 E2. subst y. exfalso. destruct S as [S|S]; subst c; [apply A|apply B]; now left.
  - cbn in E. injection E as E1 E2. refine (IH u _ _ C a c b E2 S); intro I; [apply A|apply B]; now right.
Qed.
Lemma clean_cons : forall u, ~ starts_junk u -> clean u -> clean (47 :: u).
Proof. intros u N C a c b E S. destruct a as [|z a]; cbn in E; injection E as E1 E2; [subst; exact N|exact (C a c b E2 S)]. Qed.
Lemma not_junk : forall x y u, x <> 47 -> x <> 92 -> ~ (x = 46 /\ y = 46) -> ~ starts_junk (x :: y :: u).
Proof. intros x y u A B N [(c & w & E & [S|S])|[w E]]; injection E; intros; subst; auto. Qed.

Definition good_name (name : bytes) : Prop := exists o, name = op_name o.
Lemma name_facts : forall name, good_name name -> Forall token_byte name /\ ~ In 47 name /\ ~ In 92 name /\ ~ In 37 name /\ ~ In 63 name /\ ~ starts_junk name /\ len name <= 14 /\ ~ In 10 name.
Proof.
  intros name (o & ->). destruct o; (split; [unfold op_name, token_byte; cbn; repeat (constructor; [lia|]); constructor|]);
  do 4 (split; [cbn; intuition discriminate|]); (split; [apply not_junk; cbn; intuition discriminate|split; [vm_compute; discriminate|cbn; intuition discriminate]]).
Qed.
Definition good_label (seg : option bytes) : Prop := match seg with Some p => plain_label p | None => True end.

Lemma uri_facts : forall seg name, good_label seg -> good_name name ->
  let u := request_uri seg name in
  token u /\ hd 0 u = 47 /\ ~ In 63 u /\ ~ In 37 u /\ ~ In 0 u /\ clean u /\ len u <= 272.
Proof.
  intros seg name G N u. destruct (name_facts _ N) as (T & N1 & N2 & N3 & N4 & J & L & _).
  assert (Tu : Forall token_byte u).
  { unfold u, request_uri. repeat (apply Forall_app; split); try assumption.
    - cbn. unfold token_byte. repeat (constructor; [lia|]). constructor.
    - destruct seg as [p|]; [|constructor]. apply (Forall_app token_byte (str "/") p). split; [|exact (proj2 (proj1 G))]. change (Forall token_byte [47]). constructor; [unfold token_byte; lia|constructor].
    - change (Forall token_byte [47]). constructor; [unfold token_byte; lia|constructor]. }
  assert (In47 : forall x, x <> 47 -> ~ In x (str ".well-known/est") -> ~ In x name -> (forall p, seg = Some p -> ~ In x p) -> ~ In x u).
  { intros x X1 X2 X3 X4. unfold u, request_uri. change (str "/.well-known/est") with (47 :: str ".well-known/est"). rewrite !in_app_iff. intros [[A|A]|[A|[[A|[]]|A]]]; auto.
    destruct seg as [p|]; [|contradiction]. rewrite in_app_iff in A. destruct A as [[A|[]]|A]; [auto|]. exact (X4 p eq_refl A). }
  split; [split; [discriminate|exact Tu]|]. split; [reflexivity|].
  split; [apply In47; [discriminate|cbn; intuition discriminate|exact N4|intros p E; subst seg; apply G]|].
  split; [apply In47; [discriminate|cbn; intuition discriminate|exact N3|intros p E; subst seg; apply G]|].
  split; [intro I; rewrite Forall_forall in Tu; specialize (Tu 0 I); unfold token_byte in Tu; lia|].
  split.
  - assert (C1 : clean (47 :: name)) by (apply clean_cons; [exact J|now apply clean_nosep]).
    assert (C2 : clean (match seg with Some p => str "/" ++ p | None => [] end ++ str "/" ++ name)).
    { destruct seg as [p|]; [|exact C1]. destruct G as ((Np & Tp) & Lp & P1 & P2 & P3 & P4 & P5).
      change (clean (47 :: p ++ 47 :: name)). apply clean_cons; [|now apply clean_join].
      destruct p as [|x [|y p]]; [contradiction| |].
      - apply not_junk; [intro; apply P1; now left|intro; apply P2; now left|intros [_ E]; discriminate E].
      - apply not_junk; [intro; apply P1; now left|intro; apply P2; now left|]. intros [-> ->]. apply P5. now exists p. }
    unfold u, request_uri. change (str "/.well-known/est") with (47 :: str ".well-known" ++ 47 :: str "est").
    cbn [Datatypes.app]. rewrite <- app_assoc. apply clean_cons; [apply not_junk; intuition discriminate|].
    apply clean_join; try (cbn; intuition discriminate). cbn [Datatypes.app]. apply clean_cons; [apply not_junk; intuition discriminate|].
    apply (clean_join (str "est")); [cbn; intuition discriminate|cbn; intuition discriminate|exact C2].
  - unfold u, request_uri. rewrite !len_app. change (len (str "/.well-known/est")) with 16. change (len (str "/")) with 1.
    destruct seg as [p|]; [|change (len (@nil Z)) with 0; lia]. rewrite len_app. change (len (str "/")) with 1. destruct G as (_ & Lp & _). lia.
Qed.

(** ** The headers *)
Definition base_headers (c : client) : list (bytes * bytes) :=
  [(str "User-Agent", str "libest 3.2.0p"); (str "Connection", str "close");
   (str "Host", c_server c ++ str ":" ++ print_int (c_port c)); (str "Accept", str "*/*")].
Definition body_headers (n : Z) : list (bytes * bytes) :=
  [(str "Content-Type", str "application/pkcs10"); (str "Content-Length", print_int n)].
Definition auth_headers (v : option bytes) : list (bytes * bytes) :=
  match v with Some a => [(str "Authorization", a)] | None => [] end.
Definition rendered (hs : list (bytes * bytes)) : bytes := concat (map render_header hs).

Lemma rendered_app : forall a b, rendered (a ++ b) = rendered a ++ rendered b.
Proof. intros. unfold rendered. now rewrite map_app, concat_app. Qed.
Lemma start_render : forall meth name c,
  request_start meth name c = meth ++ str " " ++ request_uri (c_path c) name ++ str " " ++ str "HTTP/1.1" ++ CRLF ++ rendered (base_headers c).
Proof.
  intros. unfold request_start, request_uri, rendered, base_headers, render_header. cbn [map concat fst snd].
  rewrite app_nil_r. change (str " /.well-known/est") with (str " " ++ str "/.well-known/est"). change (str " HTTP/1.1") with (str " " ++ str "HTTP/1.1").
  change (str "User-Agent: ") with (str "User-Agent" ++ str ": "). change (str "Connection: close") with (str "Connection" ++ str ": " ++ str "close").
  change (str "Host: ") with (str "Host" ++ str ": "). change (str "Accept: */*") with (str "Accept" ++ str ": " ++ str "*/*"). unfold AGENT.
  rewrite <- !app_assoc. reflexivity.
Qed.
Lemma post_render : forall name n c, post_start name n c =
  str "POST" ++ str " " ++ request_uri (c_path c) name ++ str " " ++ str "HTTP/1.1" ++ CRLF ++ rendered (base_headers c ++ body_headers n).
Proof.
  intros. unfold post_start. rewrite start_render, rendered_app. rewrite <- !app_assoc. do 6 f_equal. f_equal.
  unfold rendered, body_headers, render_header. cbn [map concat fst snd]. rewrite app_nil_r.
  change (str "Content-Type: application/pkcs10") with (str "Content-Type" ++ str ": " ++ str "application/pkcs10").
  change (str "Content-Length: ") with (str "Content-Length" ++ str ": "). rewrite <- !app_assoc. reflexivity.
Qed.

Definition good_headers (hs : list (bytes * bytes)) : Prop := Forall (fun h => header_name (fst h) /\ header_value (snd h)) hs.
Ltac lit_name := split; [split; [discriminate|cbn; unfold token_byte; repeat (constructor; [lia|]); constructor]|cbn; intuition discriminate].
Ltac lit_value := split; [cbn; repeat (constructor; [lia|]); constructor|cbn; discriminate].
Lemma digits_value : forall n, 0 <= n -> Forall (fun c => 48 <= c <= 57) (print_int n) /\ print_int n <> [].
Proof. intros n H. destruct (print_int_decimal n H) as (A & B & _). split; assumption. Qed.
Lemma base_good : forall c, plain_server (c_server c) (c_port c) -> good_headers (base_headers c).
Proof.
  intros c (S & L & P). destruct (digits_value (c_port c) ltac:(lia)) as [D _]. unfold good_headers, base_headers.
  repeat apply Forall_cons; [| | | |constructor]; cbn [fst snd]; (split; [lit_name|]); try lit_value.
  split.
  - apply Forall_app; split; [|apply Forall_app; split].
    + eapply Forall_impl; [|exact S]. cbn. intros; lia.
    + cbn. constructor; [lia|constructor].
    + eapply Forall_impl; [|exact D]. cbn. intros; lia.
  - destruct (c_server c) as [|x r]; [discriminate|]. inversion S; subst. cbn. lia.
Qed.
Lemma body_good : forall n, 0 <= n -> good_headers (body_headers n).
Proof.
  intros n H. destruct (digits_value n H) as [D N]. unfold good_headers, body_headers.
  repeat apply Forall_cons; [| |constructor]; cbn [fst snd]; (split; [lit_name|]); try lit_value.
  split; [eapply Forall_impl; [|exact D]; cbn; intros; lia|]. destruct (print_int n) as [|x r]; [contradiction|]. inversion D; subst. cbn. lia.
Qed.

(** ** What the client adds for its credentials *)
Lemma printable_app : forall a b, printable_text a -> printable_text b -> printable_text (a ++ b).
Proof. intros a b A B. apply Forall_app. now split. Qed.
Lemma hex_printable : forall s, all_bytes s -> printable_text (hex_string s).
Proof.
  intros s H. unfold hex_string. induction H as [|b s Hb H IH]; [constructor|]. cbn [flat_map].
  apply printable_app; [|exact IH]. unfold is_byte in Hb. assert (A : 0 <= b / 16 < 16) by (split; [apply Z.div_pos; lia|apply Z.div_lt_upper_bound; lia]).
  pose proof (Z.mod_pos_bound b 16 ltac:(lia)) as B.
  assert (D : forall v, 0 <= v < 16 -> 32 <= hex_digit v <= 126).
  { intros v Hv. assert (E : exists n, v = Z.of_nat n /\ (n < 16)%nat) by (exists (Z.to_nat v); lia). destruct E as (n & -> & Hn).
    do 16 (destruct n as [|n]; [vm_compute; split; discriminate|]). lia. }
  constructor; [now apply D|]. constructor; [now apply D|constructor].
Qed.
Lemma printable_lit : forall s, forallb (fun c => (32 <=? c) && (c <=? 126)) s = true -> printable_text s.
Proof. intros s H. rewrite forallb_forall in H. apply Forall_forall. intros x I. specialize (H x I). lia. Qed.
Ltac lit := apply printable_lit; reflexivity.
Lemma digest_value_good : forall user realm nonce uri cnonce response, printable_text user -> printable_text realm -> printable_text nonce -> printable_text uri -> printable_text cnonce -> printable_text response ->
  header_value (str "Digest " ++ digest_rest user realm nonce uri cnonce response).
Proof.
  intros. split; [|cbn; discriminate]. unfold digest_rest, quote.
  let go := (first [assumption | apply printable_lit; reflexivity]) in
  repeat first [solve [go] | apply printable_app].
Qed.

Definition creds (c : client) (t : session) : cred := if c_cb c then t_cred t else no_cred.
Definition says (X : ext) (c : client) (t : session) (name : bytes) (v : option bytes) : Prop :=
  authorizes (x_md5 X) (c_user c) (c_pwd c) (k_realm (c_http c)) (k_nonce (c_http c)) (creds c t) (t_rnd t) name (k_mode (c_http c)) v.

Lemma add_auth_says : forall X c t name v hdr, good_name name -> says X c t name v -> len hdr <= 4100 ->
  add_auth X c t hdr (str "/.well-known/est/" ++ name) = Ok (hdr ++ rendered (auth_headers v)) /\ good_headers (auth_headers v).
Proof.
  intros X c t name v hdr N A L. unfold says in A. unfold add_auth. fold (creds c t).
  assert (R1 : forall a, rendered (auth_headers (Some a)) = render_header (str "Authorization", a)) by (intro a; unfold rendered; cbn [auth_headers map concat]; apply app_nil_r).
  assert (R2 : forall a, header_value a -> good_headers (auth_headers (Some a))) by (intros a Ha; constructor; [split; [lit_name|exact Ha]|constructor]).
  remember (k_mode (c_http c)) as m eqn:M. destruct A as [|user pwd U Lu Lp|token T Lt Nt|user pwd random U Pu Lu Lp Pr Lr Pn Ln R R8 Rb H16 Hb uri].
  - split; [|constructor]. unfold rendered. cbn [auth_headers map concat]. rewrite app_nil_r. destruct (t_rnd t); reflexivity.
  - rewrite R1. assert (Q : forall rnd, est_client_add_auth_hdr (x_md5 X) AUTH_BASIC (c_user c) (c_pwd c) (k_realm (c_http c)) (k_nonce (c_http c)) (creds c t) rnd hdr (str "/.well-known/est/" ++ name)
       = Ok (hdr ++ render_header (str "Authorization", basic_value user pwd)) /\ header_value (basic_value user pwd)) by (intro rnd; apply client_basic; try assumption; lia).
    split; [|apply R2; exact (proj2 (Q []))]. destruct (t_rnd t); exact (proj1 (Q _)).
  - rewrite R1. assert (Q : forall rnd, est_client_add_auth_hdr (x_md5 X) AUTH_TOKEN (c_user c) (c_pwd c) (k_realm (c_http c)) (k_nonce (c_http c)) (creds c t) rnd hdr (str "/.well-known/est/" ++ name)
       = Ok (hdr ++ render_header (str "Authorization", bearer_value token)) /\ header_value (bearer_value token)) by (intro rnd; apply client_token; try assumption; lia).
    split; [|apply R2; exact (proj2 (Q []))]. destruct (t_rnd t); exact (proj1 (Q _)).
  - rewrite R1, R. destruct (name_facts _ N) as (T & _ & _ & _ & _ & _ & Ln' & _). split.
    + apply client_digest_header; try assumption; try lia.
      * destruct U as [(E & _)|(E & _)]; rewrite E; [exact Lu|change (len (@nil Z)) with 0; lia].
      * unfold uri. rewrite len_app. change (len (str "/.well-known/est/")) with 17. lia.
    + apply R2, digest_value_good; try assumption.
      * unfold uri. apply printable_app; [lit|]. eapply Forall_impl; [|exact T]. unfold token_byte. intros; lia.
      * now apply hex_printable.
      * apply hex_printable, Hb.
Qed.

(** ** The server's side *)
Lemma closes : forall ka st c hs, ~ stays_open ka st (base_headers c ++ hs) (str "HTTP/1.1").
Proof.
  intros ka st c hs (_ & _ & _ & [(v & F & E)|(F & _)]).
  - apply get_header_first in F. cbn in F. injection F as F. subst v. discriminate E.
  - apply get_header_none in F. discriminate F.
Qed.
Section Served.
Context {S0 : Type} (handler : S0 -> est_req -> S0 * Z).
Definition served (meth uri : bytes) (hs : list (bytes * bytes)) (body q : bytes) : Prop :=
  forall ka s w, concat w = q -> exists r,
    er_method r = meth /\ er_uri r = uri /\ er_headers r = hs
    /\ (er_body r = Some (len body, body) \/ er_body r = None /\ body = [])
    /\ process_new_connection S0 handler ka s w = Ok ([EvServed r (snd (handler s r))], fst (handler s r)).
End Served.

Lemma send_served : forall {S0} (handler : S0 -> est_req -> S0 * Z) meth name c hs body rest,
  meth = str "GET" \/ meth = str "POST" -> good_label (c_path c) -> good_name name -> plain_server (c_server c) (c_port c) ->
  good_headers hs -> len hs <= 10 -> len (rendered hs) <= 6000 ->
  (body = [] /\ meth = str "GET" /\ no_header hs (str "Content-Length")
   \/ len body <= 8192 /\ get_header hs (str "Content-Length") = Some (print_int (len body))) ->
  served handler meth (request_uri (c_path c) name) (base_headers c ++ hs) body
    (request_start meth name c ++ rendered hs ++ CRLF ++ body ++ rest).
Proof.
  intros S0 handler meth name c hs body rest Hm Hl Hn Hs Hh Lh Lr Hb ka s w W.
  destruct (uri_facts _ _ Hl Hn) as (T & H47 & N63 & N37 & N0 & C & Lu).
  assert (F : fit c).
  { destruct Hs as (A & B & D). split; [exact B|]. split; [intro I; rewrite Forall_forall in A; specialize (A _ I); lia|]. split; [exact D|].
    destruct (c_path c) as [p|]; [|exact Logic.I]. destruct Hl as ((_ & Tp) & Lp & _). split; [exact Lp|]. intro I. rewrite Forall_forall in Tp. specialize (Tp _ I). unfold token_byte in Tp. lia. }
  assert (E : request_start meth name c ++ rendered hs ++ CRLF ++ body ++ rest = render_head meth (request_uri (c_path c) name) (str "HTTP/1.1") (base_headers c ++ hs) ++ body ++ rest).
  { rewrite start_render. unfold render_head. fold (rendered (base_headers c ++ hs)). rewrite rendered_app. rewrite <- !app_assoc. reflexivity. }
  rewrite E in W.
  assert (L : len (request_start meth name c) <= 900).
  { destruct (name_facts _ Hn) as (_ & _ & _ & _ & _ & _ & Ln & N10). refine (proj1 (proj2 (proj2 (start_facts meth name c F _ N10 _ _ _ _)))); [..|lia| |]; destruct Hm as [-> | ->]; cbn; try lia; try reflexivity; intuition discriminate. }
  assert (A : allowed_request meth (request_uri (c_path c) name) (str "HTTP/1.1") (base_headers c ++ hs) body).
  { split; [exact Hm|]. split; [exact T|]. split; [now left|]. split; [now right|]. split; [rewrite len_app; change (len (base_headers c)) with 4; lia|].
    split; [apply Forall_app; split; [now apply base_good|exact Hh]|]. split.
    - pose proof (f_equal len E) as EL. rewrite !len_app in EL. change (len CRLF) with 2 in EL. lia.
    - destruct Hb as [(Eb & Em & Nh)|(Lb & G)]; [left|right].
      + split; [exact Eb|]. split; [exact Em|]. apply Forall_app. split; [|exact Nh]. repeat constructor; cbn [fst]; intro Q; discriminate Q.
      + exists (print_int (len body)). split; [|split; [apply print_int_decimal; apply len_nonneg|exact Lb]]. apply get_header_first. exact G. }
  destruct (allowed_served_spec S0 handler ka s w _ _ _ _ _ rest A Lu W) as (r & Rm & Rh & Ru & Rb & Rs). exists r.
  split; [exact Rm|]. split; [exact (uri_same _ _ N63 N37 N0 C Ru)|]. split; [exact Rh|]. split; [tauto|]. apply Rs, closes.
Qed.

(** ** The client's functions *)
Lemma ok_kept : forall (b : bool) (x h : bytes), Ok (if b then [] else x) = Ok h -> h <> [] -> h = x.
Proof. intros [|] x h E N; injection E as <-; [contradiction|reflexivity]. Qed.
Lemma ok_same : forall x h : bytes, Ok x = Ok h -> h = x.
Proof. intros x h E. now injection E as <-. Qed.
Definition posted (o : operation) : Prop := In o [OP_SIMPLE_ENROLL; OP_SIMPLE_REENROLL; OP_SERVER_KEYGEN].
Lemma build_says : forall X op (body : bytes) c t v h, posted op -> plain_server (c_server c) (c_port c) -> good_label (c_path c) -> len body <= 4096 ->
  says X c t (op_name op) v -> build_header X op c t (len body) = Ok h -> h <> [] ->
  h = request_start (str "POST") (op_name op) c ++ rendered (body_headers (len body) ++ auth_headers v) /\ good_headers (auth_headers v).
Proof.
  intros X op body c t v h P Hs Hl Lb A B N.
  assert (F : fit c).
  { destruct Hs as (D1 & D2 & D3). split; [exact D2|]. split; [intro I; rewrite Forall_forall in D1; specialize (D1 _ I); lia|]. split; [exact D3|].
    destruct (c_path c) as [p|]; [|exact Logic.I]. destruct Hl as ((_ & Tp) & Lp & _). split; [exact Lp|]. intro I. rewrite Forall_forall in Tp. specialize (Tp _ I). unfold token_byte in Tp. lia. }
  assert (Gn : good_name (op_name op)) by (exists op; reflexivity).
  destruct (name_facts _ Gn) as (_ & _ & _ & _ & _ & _ & Ln & N10).
  assert (Lp : len (post_start (op_name op) (len body) c) <= 1000) by (refine (proj1 (proj2 (proj2 (post_facts (op_name op) (len body) c F N10 _ _)))); [lia|pose proof (len_nonneg _ body); lia]).
  destruct (add_auth_says X c t (op_name op) v (post_start (op_name op) (len body) c) Gn A ltac:(lia)) as [Q G]. split; [|exact G].
  assert (E : h = post_start (op_name op) (len body) c ++ rendered (auth_headers v)).
  { assert (S : snprintf_str (post_start (op_name op) (len body) c) REQ_TOTAL = post_start (op_name op) (len body) c) by (apply snprintf_whole; unfold REQ_TOTAL; lia).
    cbn in P. decompose [or] P; try contradiction; subst op; cbn [build_header] in B.
    - unfold est_client_build_enroll_header in B. change (str "simpleenroll") with (op_name OP_SIMPLE_ENROLL) in B. change (str "/.well-known/est/simpleenroll") with (str "/.well-known/est/" ++ op_name OP_SIMPLE_ENROLL) in B.
      rewrite S, Q in B. exact (ok_kept _ _ _ B N).
    - unfold est_client_build_reenroll_header in B. change (str "simplereenroll") with (op_name OP_SIMPLE_REENROLL) in B. change (str "/.well-known/est/simplereenroll") with (str "/.well-known/est/" ++ op_name OP_SIMPLE_REENROLL) in B.
      rewrite S, Q in B. exact (ok_kept _ _ _ B N).
    - unfold est_client_build_server_keygen_header in B. change (str "serverkeygen") with (op_name OP_SERVER_KEYGEN) in B. change (str "/.well-known/est/serverkeygen") with (str "/.well-known/est/" ++ op_name OP_SERVER_KEYGEN) in B.
      rewrite S, Q in B. exact (ok_same _ _ B). }
  rewrite E, post_render, start_render, !rendered_app. rewrite <- !app_assoc. reflexivity.
Qed.
Lemma authorized_no_length : forall v, no_header (auth_headers v) (str "Content-Length").
Proof. intros [a|]; repeat constructor. cbn [fst]. intro Q; discriminate Q. Qed.

Lemma post_served : forall {S0} (handler : S0 -> est_req -> S0 * Z) X op (body : bytes) c t v h q, posted op -> plain_server (c_server c) (c_port c) -> good_label (c_path c) ->
  says X c t (op_name op) v -> build_header X op c t (len body) = Ok h -> h <> [] -> complete h body = Ok q ->
  served handler (str "POST") (request_uri (c_path c) (op_name op)) (base_headers c ++ body_headers (len body) ++ auth_headers v) body q.
Proof.
  intros S0 handler X op body c t v h q P Hs Hl A B N Q. unfold complete in Q. destruct (REQ_DATA_MAX <? len body) eqn:Lb; [discriminate Q|]. unfold REQ_DATA_MAX in Lb.
  destruct (REQ_TOTAL <? _) eqn:Lt; [discriminate Q|]. unfold REQ_TOTAL in Lt. injection Q as Q.
  destruct (build_says X op body c t v h P Hs Hl ltac:(lia) A B N) as [E G].
  set (rest := if REQ_TOTAL - len (h ++ CRLF ++ body) =? 2 then [13; 0] else CRLF) in Q. clearbody rest. rewrite <- Q.
  rewrite !len_app in Lt. change (len CRLF) with 2 in Lt. pose proof (len_nonneg _ body).
  assert (Lr : len (rendered (body_headers (len body) ++ auth_headers v)) <= 6000) by (rewrite E, len_app in Lt; pose proof (len_nonneg _ (request_start (str "POST") (op_name op) c)); lia).
  rewrite E. rewrite <- !app_assoc. apply send_served; try assumption.
  - now right.
  - exists op; reflexivity.
  - apply Forall_app. split; [apply body_good; apply len_nonneg|exact G].
  - destruct v; cbn; lia.
  - right. split; [lia|reflexivity].
Qed.

Lemma sends_post : forall X op body t s evs r q, est_client_send_enroll_request X op body t s = (evs, r) -> In (ERequest q) evs ->
  exists h, build_header X op (s_c s) t (len body) = Ok h /\ h <> [] /\ complete h body = Ok q.
Proof.
  intros X op body t [c w] evs r q E I. rewrite answer_run in E. cbn [s_c]. destruct (build_header X op c t (len body)) as [h|]; [|injection E as <- <-; contradiction].
  destruct (len h =? 0) eqn:L; [injection E as <- <-; contradiction|]. destruct (complete h body) as [q'|] eqn:Q; [|injection E as <- <-; contradiction].
  exists h. split; [reflexivity|]. split; [intros ->; discriminate L|]. rewrite Q. f_equal.
  destruct (t_write t); injection E as <- _; cbn in I; destruct I as [I|I]; try (now injection I); try (destruct I as [I|[]]; discriminate I); contradiction.
Qed.

(** Requests without a body: the octets the client writes. *)
Lemma response_quiet : forall op t s, fst (get_response op t s) = [].
Proof. intros op t s. unfold get_response. run. destruct (est_io_get_response _ _ _) as [[[rv d] k]|]; reflexivity. Qed.
Lemma sends_get : forall {A} (h : bytes) (t : session) (k : bool -> M A) s evs r q, (forall b s', fst (k b s') = []) ->
  (w <~ exchange (h ++ CRLF ++ CRLF) t ;; k w) s = (evs, r) -> In (ERequest q) evs -> q = h ++ CRLF ++ CRLF.
Proof.
  intros A h t k s evs r q K E I. unfold exchange in E. run_in E. destruct (t_write t).
  - match type of E with context [k ?b ?s'] => pose proof (K b s') as Kq; destruct (k b s') as [e2 r2] end. cbn [fst] in Kq. subst e2. injection E as <- _.
    cbn in I. destruct I as [I|[I|[]]]; [now injection I|discriminate I].
  - match type of E with context [k ?b ?s'] => pose proof (K b s') as Kq; destruct (k b s') as [e2 r2] end. cbn [fst] in Kq. subst e2. injection E as <- _.
    cbn in I. destruct I as [I|[]]; now injection I.
Qed.
Lemma sends_cacerts : forall X t s evs r q, est_client_send_cacerts_request X t s = (evs, r) -> In (ERequest q) evs ->
  est_client_build_cacerts_header (s_c s) <> [] /\ q = est_client_build_cacerts_header (s_c s) ++ CRLF ++ CRLF.
Proof.
  intros X t s evs r q E I. unfold est_client_send_cacerts_request in E.
  match type of E with (mbind get ?f) s = _ => change (mbind get f s) with (let '(e2, r0) := f (s_c s) s in ([] ++ e2, r0)) in E end. cbv beta zeta in E.
  destruct (len (est_client_build_cacerts_header (s_c s)) =? 0) eqn:L; [injection E as <- <-; contradiction|].
  match type of E with (let '(_, _) := ?m in _) = _ => destruct m as [e2 r0] eqn:M end. cbn [Datatypes.app] in E. injection E as -> ->.
  split; [intro Q; rewrite Q in L; discriminate L|]. refine (sends_get _ t _ s evs r q _ M I).
  intros [|] s'; cbn [negb]; [|reflexivity]. unfold mbind at 1. pose proof (response_quiet OP_CACERTS t s') as R. destruct (get_response OP_CACERTS t s') as [e1 [[[rv d] s1]|]]; cbn [fst] in R; subst e1; [|reflexivity].
  destruct (negb (err_eqb rv EST_ERR_NONE)); [reflexivity|]. cbv zeta. destruct (len (delivered_bytes d) =? 0); [reflexivity|]. destruct (EST_CA_MAX <? _); [reflexivity|].
  destruct (verify_cacert_resp X (delivered_bytes d)) as [e text]. destruct (err_eqb e EST_ERR_NONE); reflexivity.
Qed.
Lemma sends_csrattrs : forall X t s evs r q, est_client_send_csrattrs_request X t s = (evs, r) -> In (ERequest q) evs ->
  exists h, est_client_build_csr_header X (s_c s) t = Ok h /\ h <> [] /\ q = h ++ CRLF ++ CRLF.
Proof.
  intros X t s evs r q E I. unfold est_client_send_csrattrs_request in E.
  match type of E with (mbind get ?f) s = _ => change (mbind get f s) with (let '(e2, r0) := f (s_c s) s in ([] ++ e2, r0)) in E end. cbv beta zeta in E.
  destruct (est_client_build_csr_header X (s_c s) t) as [h|] eqn:B; [|injection E as <- <-; contradiction]. exists h. split; [reflexivity|].
  match type of E with context [mbind (lift (Ok h)) ?f s] => change (mbind (lift (Ok h)) f s) with (let '(e2, r0) := f h s in ([] ++ e2, r0)) in E end. cbv beta zeta in E.
  destruct (len h =? 0) eqn:L; [injection E as <- <-; contradiction|].
  match type of E with context [let '(_, _) := mbind (exchange ?a ?b) ?f s in _] => destruct (mbind (exchange a b) f s) as [e2 r0] eqn:M end. cbn [Datatypes.app] in E. injection E as -> ->.
  split; [intro Q; rewrite Q in L; discriminate L|]. refine (sends_get _ t _ s evs r q _ M I).
  intros [|] s'; cbn [negb]; [|reflexivity]. unfold mbind at 1. pose proof (response_quiet OP_CSRATTRS t s') as R. destruct (get_response OP_CSRATTRS t s') as [e1 [[[rv d] s1]|]]; cbn [fst] in R; subst e1; [|reflexivity].
  destruct (err_eqb rv EST_ERR_NONE); reflexivity.
Qed.

Lemma fit_of : forall c, plain_server (c_server c) (c_port c) -> good_label (c_path c) -> fit c.
Proof.
  intros c (D1 & D2 & D3) Hl. split; [exact D2|]. split; [intro I; rewrite Forall_forall in D1; specialize (D1 _ I); lia|]. split; [exact D3|].
  destruct (c_path c) as [p|]; [|exact Logic.I]. destruct Hl as ((_ & Tp) & Lp & _). split; [exact Lp|]. intro I. rewrite Forall_forall in Tp. specialize (Tp _ I). unfold token_byte in Tp. lia.
Qed.
Lemma get_len : forall name c, good_name name -> plain_server (c_server c) (c_port c) -> good_label (c_path c) -> len (request_start (str "GET") name c) <= 900.
Proof.
  intros name c Gn Hs Hl. destruct (name_facts _ Gn) as (_ & _ & _ & _ & _ & _ & Ln & N10).
  refine (proj1 (proj2 (proj2 (start_facts (str "GET") name c (fit_of c Hs Hl) _ N10 _ _ _ _)))); try lia; cbn; try lia; try reflexivity; intuition discriminate.
Qed.
Lemma cacerts_served : forall {S0} (handler : S0 -> est_req -> S0 * Z) X t s evs r q, plain_server (c_server (s_c s)) (c_port (s_c s)) -> good_label (c_path (s_c s)) ->
  est_client_send_cacerts_request X t s = (evs, r) -> In (ERequest q) evs ->
  served handler (str "GET") (request_uri (c_path (s_c s)) (str "cacerts")) (base_headers (s_c s)) [] q.
Proof.
  intros S0 handler X t s evs r q Hs Hl E I. destruct (sends_cacerts _ _ _ _ _ _ E I) as [N Q]. set (c := s_c s) in *. clearbody c.
  assert (Gn : good_name (str "cacerts")) by (exists OP_CACERTS; reflexivity). pose proof (get_len _ _ Gn Hs Hl) as L.
  assert (H : est_client_build_cacerts_header c = request_start (str "GET") (str "cacerts") c).
  { unfold est_client_build_cacerts_header in *. rewrite snprintf_whole by (unfold REQ_TOTAL; lia). rewrite snprintf_whole in N by (unfold REQ_TOTAL; lia). destruct (HDR_MAX <? _); [contradiction|reflexivity]. }
  rewrite Q, H. rewrite <- (app_nil_r (base_headers c)). apply (send_served handler (str "GET") (str "cacerts") c [] [] CRLF); try assumption; try constructor; try reflexivity; try (cbn; lia).
  split; [reflexivity|]. split; [reflexivity|constructor].
Qed.
Lemma csrattrs_served : forall {S0} (handler : S0 -> est_req -> S0 * Z) X t s evs r q v, plain_server (c_server (s_c s)) (c_port (s_c s)) -> good_label (c_path (s_c s)) ->
  says X (s_c s) t (str "csrattrs") v ->
  est_client_send_csrattrs_request X t s = (evs, r) -> In (ERequest q) evs ->
  served handler (str "GET") (request_uri (c_path (s_c s)) (str "csrattrs")) (base_headers (s_c s) ++ auth_headers v) [] q.
Proof.
  intros S0 handler X t s evs r q v Hs Hl A E I. destruct (sends_csrattrs _ _ _ _ _ _ E I) as (h & B & N & Q). set (c := s_c s) in *. clearbody c.
  assert (Gn : good_name (str "csrattrs")) by (exists OP_CSRATTRS; reflexivity). pose proof (get_len _ _ Gn Hs Hl) as L.
  destruct (add_auth_says X c t (str "csrattrs") v (request_start (str "GET") (str "csrattrs") c) Gn A ltac:(lia)) as [D G].
  unfold est_client_build_csr_header in B. rewrite snprintf_whole in B by (unfold REQ_TOTAL; lia). change (str "/.well-known/est/csrattrs") with (str "/.well-known/est/" ++ str "csrattrs") in B. rewrite D in B. assert (Eh := ok_kept _ _ _ B N). change (Ok (if HDR_MAX <? len (request_start (str "GET") (str "csrattrs") c ++ rendered (auth_headers v)) then [] else request_start (str "GET") (str "csrattrs") c ++ rendered (auth_headers v)) = Ok h) in B.
  destruct (HDR_MAX <? len (request_start (str "GET") (str "csrattrs") c ++ rendered (auth_headers v))) eqn:Lh; [exfalso; apply N; exact (ok_same _ _ B)|]. unfold HDR_MAX in Lh.
  rewrite len_app in Lh. pose proof (len_nonneg _ (request_start (str "GET") (str "csrattrs") c)).
  rewrite Q, Eh, <- app_assoc. apply (send_served handler (str "GET") (str "csrattrs") c (auth_headers v) [] CRLF); try assumption; try lia.
  - now left.
  - destruct v; cbn; lia.
  - left. split; [reflexivity|]. split; [reflexivity|apply authorized_no_length].
Qed.
