(** The server's answers as the client reads them. *)
From Coq Require Import String ZArith List Bool Lia ZifyBool ZifyNat.
From Verif Require Import Base Spec.Http Spec.Server Spec.Client Spec.Multipart Spec.Registrar Model.CLib Model.Codec Model.EstErr Model.HttpServer Model.Uri
  Model.AuthHdr Model.Server Model.ClientHttp Model.Multipart Proofs.AuthHdr Proofs.ServerAuth Proofs.ServerEnroll Proofs.ServerRequest Proofs.ServerProps
  Proofs.ServerCA Proofs.ServerReply Proofs.ServerResponse Proofs.ServerBrski Proofs.ClientHeaders Proofs.ClientHttp Proofs.ClientRender Proofs.ClientServer Spec.Challenge Proofs.ClientChallenge.
Import ListNotations.
Open Scope Z_scope.

(** ** Reading a successful answer *)
Definition plain_text (l : bytes) : bool := forallb (fun c => negb (existsb (Z.eqb c) [0; 10; 13])) l.
Lemma plain_text_ok : forall l, plain_text l = true -> Forall (fun c => ~ In c [0; 10; 13]) l.
Proof. intros l F. rewrite Forall_forall. unfold plain_text in F. rewrite forallb_forall in F. intros x I Q. specialize (F x I). cbn in Q, F. lia. Qed.
Lemma ok_plain : forall ct enc n, 0 <= n -> plain_text ct = true -> hd 0 ct <> 32 -> enc = None \/ enc = Some (str "base64") -> plain_headers (ok_headers ct enc n).
Proof.
  intros ct enc n Hn Pc Hc He. destruct (dec_plain n Hn) as [F N].
  assert (P : forall a b, fst (a, b) <> @nil Z -> forallb (fun c => negb (existsb (Z.eqb c) [0; 10; 13; 58])) a = true -> Forall (fun c => ~ In c [0; 10; 13]) b -> hd 0 b <> 32 -> plain_header (a, b)).
  { intros a b Na Fa Fb Hb. split; [exact Na|]. split; [|split; [exact Fb|exact Hb]]. cbn [fst]. rewrite Forall_forall. rewrite forallb_forall in Fa. intros x I Q. specialize (Fa x I). cbn in Q, Fa. lia. }
  assert (Pn : plain_header (str "Content-Length", print_int n)).
  { apply P; [discriminate|reflexivity| |].
    - eapply Forall_impl; [|exact F]. cbn. intuition lia.
    - destruct (print_int n); [contradiction|]. inversion F; subst. cbn. lia. }
  assert (Ps : plain_header (str "Status", str "200 OK")) by (apply P; [discriminate|reflexivity|now apply plain_text_ok|discriminate]).
  assert (Pt : plain_header (str "Content-Type", ct)) by (apply P; [discriminate|reflexivity|now apply plain_text_ok|exact Hc]).
  assert (Pe : plain_header (str "Content-Transfer-Encoding", str "base64")) by (apply P; [discriminate|reflexivity|now apply plain_text_ok|discriminate]).
  unfold ok_headers. destruct He as [->| ->]; (split; [unfold len; cbn; lia|]); cbn [Datatypes.app]; repeat (constructor; [assumption|]); constructor.
Qed.
Lemma ok_head_no_nul : forall ct enc n, 0 <= n -> plain_text ct = true -> enc = None \/ enc = Some (str "base64") -> ~ In 0 (ok_head ct enc n).
Proof.
  intros ct enc n Hn Pc He. destruct (dec_plain n Hn) as [F N]. apply plain_text_ok in Pc. rewrite Forall_forall in Pc, F.
  assert (Pn : ~ In 0 (print_int n)) by (intro Q; specialize (F _ Q); lia).
  assert (Pt : ~ In 0 ct) by (intro Q; apply (Pc _ Q); cbn; auto).
  assert (P : forall l, forallb (fun c => negb (c =? 0)) l = true -> ~ In 0 l) by (intros l Hf; now apply no_nul_lit).
  unfold ok_head, hdr. destruct He as [->| ->]; intro I; rewrite !in_app_iff in I;
    repeat match goal with H : _ \/ _ |- _ => destruct H as [H|H] end; try contradiction; revert I; apply P; reflexivity.
Qed.
Lemma ok_one_line : forall ct, plain_text ct = true -> one_line ct.
Proof. intros ct P. apply plain_text_ok in P. eapply Forall_impl; [|exact P]. cbn. intuition. Qed.
Lemma print_len : forall n, 0 <= n <= 2147483647 -> len (print_int n) <= 32.
Proof.
  intros n Hn. unfold print_int. replace (n <? 0) with false by lia.
  assert (G : forall f z acc, (length (dec_digits f z acc) <= f + length acc)%nat).
  { induction f as [|f IH]; intros z acc; cbn [dec_digits]; [lia|]. destruct (z <? 10); [cbn; lia|]. specialize (IH (z / 10) ((48 + z mod 10) :: acc)). cbn [length] in IH. lia. }
  specialize (G (S (Z.to_nat (Z.log2 n))) n []). cbn [length] in G. unfold len.
  assert (Z.log2 n <= 30). { change 30 with (Z.log2 2147483647). apply Z.log2_le_mono. lia. } lia.
Qed.
Lemma ok_head_len : forall ct enc n, 0 <= n <= 2147483647 -> len ct <= 60 -> enc = None \/ enc = Some (str "base64") -> len (ok_head ct enc n) <= 240.
Proof.
  intros ct enc n Hn Hc He. pose proof (print_len n Hn). unfold ok_head, hdr. change EOL with [13; 10].
  destruct He as [->| ->]; rewrite !len_app;
  change (len (str "HTTP/1.1 200 OK")) with 15; change (len [13; 10]) with 2; change (len (str "Status: 200 OK")) with 14; change (len (str ": ")) with 2;
  change (len (str "Content-Type")) with 12; change (len (str "Content-Transfer-Encoding")) with 25; change (len (str "Content-Length")) with 14; change (len (str "base64")) with 6; change (len (@nil Z)) with 0; lia.
Qed.

Definition plain_op (op : operation) : Prop := In op [OP_CACERTS; OP_SIMPLE_ENROLL; OP_SIMPLE_REENROLL; OP_CSRATTRS; OP_BRSKI_REQ_VOUCHER].
Lemma ok_read : forall op evs body c, plain_op op -> arrives evs (ok_head (reply_type op) (Some (str "base64")) (len body) ++ body) -> no_leading_newline body -> len body <= 1999000 ->
  est_io_get_response evs op c = Ok (EST_ERR_NONE, Deliver (match body with [] => None | _ => Some body end) (len body), set_status 200 c).
Proof.
  intros op evs body c Po Ar Hb L. pose proof (len_nonneg _ body) as L0.
  assert (T : plain_text (reply_type op) = true /\ hd 0 (reply_type op) <> 32 /\ len (reply_type op) <= 60 /\ has_body op).
  { assert (G : forall b : bool, b = true -> b = true) by auto. unfold plain_op in Po. cbn [In] in Po. repeat destruct Po as [<-|Po]; try contradiction; (split; [reflexivity|]); (split; [discriminate|]); (split; [vm_compute; discriminate|]); split; discriminate. }
  destruct T as (T1 & T2 & T3 & T4).
  pose proof (ok_head_response (reply_type op) (Some (str "base64")) body (ok_one_line _ T1) ltac:(intros x Q; inversion Q; line)) as [R _].
  refine (delivered evs _ (ok_headers (reply_type op) (Some (str "base64")) (len body)) body op c Ar R _ _ Hb _ T4 (print_int (len body)) _ _ _).
  - eexists. split; [reflexivity|]. apply ok_head_no_nul; auto.
  - apply ok_plain; auto.
  - rewrite len_app. pose proof (ok_head_len (reply_type op) (Some (str "base64")) (len body) ltac:(lia) T3 ltac:(auto)). lia.
  - split.
    + unfold ok_headers. cbn [Datatypes.app]. constructor; [intro Q; discriminate Q|]. constructor; [intros _; exists []; cbn [snd]; now rewrite app_nil_r|].
      constructor; [intro Q; discriminate Q|]. constructor; [intro Q; discriminate Q|constructor].
    + unfold ok_headers. cbn [Datatypes.app]. right. left. reflexivity.
  - exists [(str "Status", str "200 OK"); (str "Content-Type", reply_type op); (str "Content-Transfer-Encoding", str "base64")], []. split; [reflexivity|constructor].
  - apply print_int_decimal. lia.
Qed.

(** Key and certificate. *)
Definition kg_ct : bytes := str "multipart/mixed; boundary=est-server-boundary".
Lemma keygen_len : forall kt crt, len (keygen_body kt crt) <= len kt + len crt + 400.
Proof.
  intros kt crt. assert (F : len (keygen_body [] []) <= 400) by (vm_compute; discriminate). unfold keygen_body, part in *. rewrite !len_app in *. change (len (@nil Z)) with 0 in F. lia.
Qed.
Lemma occurs_prefixb : forall x d, (exists a b, d = a ++ x ++ b) -> existsb (fun n => prefixb x (skipn n d)) (seq 0 (S (length d))) = true.
Proof.
  intros x d (a & b & ->). apply existsb_exists. exists (length a). split; [apply in_seq; rewrite app_length; lia|]. rewrite skipn_app, skipn_all, Nat.sub_diag. cbn [Datatypes.app skipn].
  apply prefixb_spec. eauto.
Qed.
Lemma keygen_answer : forall kt crt, len kt + len crt <= 1900000 -> let b := keygen_body kt crt in let d := ok_head kg_ct None (len b) ++ b in let hs := ok_headers kg_ct None (len b) in
  response d 200 hs b /\ clean_head d b /\ plain_headers hs /\ len d <= len kt + len crt + 700
  /\ In (str "Content-Type", kg_ct) hs /\ Forall (fun h => occurs (str "multipart") (snd h) -> h = (str "Content-Type", kg_ct)) hs.
Proof.
  intros kt crt L b d hs. pose proof (keygen_len kt crt) as Lb. fold b in Lb. pose proof (len_nonneg _ b) as Pb.
  assert (T1 : plain_text kg_ct = true) by reflexivity.
  split; [apply (ok_head_response kg_ct None b (ok_one_line _ T1)); intros x Q; discriminate|].
  split; [eexists; split; [reflexivity|]; apply ok_head_no_nul; auto|].
  split; [apply ok_plain; auto; discriminate|].
  split. { unfold d. rewrite len_app. pose proof (ok_head_len kg_ct None (len b) ltac:(lia) ltac:(vm_compute; discriminate) ltac:(auto)). lia. }
  split; [right; left; reflexivity|].
  unfold hs, ok_headers. cbn [Datatypes.app]. constructor; [|constructor; [|constructor; [|constructor]]]; cbn [snd]; intro Oc; [|reflexivity|].
  - apply occurs_prefixb in Oc. vm_compute in Oc. discriminate.
  - exfalso. destruct Oc as (x & y & Oc). destruct (dec_plain (len b) Pb) as [F _]. rewrite Forall_forall in F. specialize (F 109). rewrite Oc in F.
    assert (48 <= 109 <= 57); [|lia]. apply F. apply in_or_app. right. apply in_or_app. left. cbn. auto.
Qed.
Lemma colons_app : forall a b, colons (a ++ b) = colons a + colons b.
Proof. intros. unfold colons. rewrite filter_app, len_app. reflexivity. Qed.
Lemma no_colons : forall l, ~ In 58 l -> colons l = 0.
Proof.
  intros l N. unfold colons. replace (filter (fun c => c =? 58) l) with (@nil Z); [reflexivity|]. symmetry. induction l as [|c l IH]; [reflexivity|]. cbn [filter].
  destruct (Z.eqb_spec c 58) as [->|_]; [exfalso; apply N; now left|]. apply IH. intro I. apply N. now right.
Qed.
Lemma keygen_colons : forall kt crt, ~ In 58 kt -> ~ In 58 crt -> colons (keygen_body kt crt) <= 15.
Proof.
  intros kt crt Nk Nc. assert (F : colons (keygen_body [] []) <= 15) by (vm_compute; discriminate). unfold keygen_body, part in *. rewrite !colons_app in *. rewrite (no_colons kt Nk), (no_colons crt Nc).
  change (colons (@nil Z)) with 0 in F. lia.
Qed.
Lemma text_lit : forall a b, forallb (fun c => negb (c =? 0)) a = true -> text (a ++ b) = a ++ text b.
Proof. intros a b. unfold text. induction a as [|c a IH]; [reflexivity|]. cbn [forallb Datatypes.app take_while]. intro F. apply andb_true_iff in F as [F1 F2]. rewrite F1. f_equal. auto. Qed.

(** An error status, whatever the operation. *)
Lemma reply_read : forall d code hs body evs op c, response d code hs body -> In code [204; 400; 401; 404; 423; 500; 502; 504] -> arrives evs d -> len d <= 1999955 ->
  exists c', est_io_get_response evs op c = Ok (status_error code, Untouched, c') /\ k_status c' = code.
Proof.
  intros d code hs body evs op c R I Ar L. pose proof (status_of _ _ _ _ R ltac:(cbn in I |- *; intuition)) as St.
  destruct (no_status d) as (co & t & Ic & Et); [rewrite St; intro Q; rewrite Q in I; cbn in I; intuition discriminate|].
  assert (co = code) by (rewrite <- St; symmetry; eapply status_line; eauto). subst co.
  destruct (status_any evs d code t op c Ar I Et L) as (c' & G & K & _). eauto.
Qed.
(** The unfinished answer to a status message. *)
Lemma status200_read : forall o evs c, status_only o = true -> arrives evs (str "HTTP/1.1 200 OK" ++ CRLF ++ str "Status: 200 OK" ++ CRLF) ->
  est_io_get_response evs o c = Ok (EST_ERR_NONE, Untouched, set_status 200 c).
Proof.
  intros o evs c So Ar. set (raw := str "HTTP/1.1 200 OK" ++ CRLF ++ str "Status: 200 OK" ++ CRLF) in *.
  assert (St : first_status status_codes raw = 200) by (vm_compute; reflexivity).
  destruct (response_run evs raw o c) as (rv & d & c' & H & S200 & _).
  - apply read_arrives; [assumption|]. unfold EST_CA_MAX. change (len raw) with 33. lia.
  - change (len raw) with 33. lia.
  - unfold EST_CA_MAX. change (len raw) with 33. lia.
  - cbv zeta in S200. rewrite St in S200. destruct (S200 eq_refl) as [-> Q]. rewrite So in Q. injection Q as -> ->. exact H.
Qed.

Section P.
Context {cert csr key E : Type}.
Variable O : @ossl cert csr key.
Variable C : @config cert.
Variable A : @app cert key E.
Variable parse_uri : bytes -> res (est_error * option operation * option bytes).
Variable attrs_parse : bytes -> res (est_error * bool).
Variable attrs_add_pop : bytes -> res (est_error * bytes).
Variable attrs_check : option (option bytes) -> bytes -> res est_error.
Variable keep : Z -> bool.

Notation event := (@event cert key).
Notation st := (@st E).
Notation request := (est_http_request O C A parse_uri attrs_parse attrs_add_pop attrs_check keep).
Notation run_op := (run_op O C A attrs_parse attrs_add_pop attrs_check keep).
Implicit Types (t : @tls cert) (e w : list event) (s : st).

(** ** What a successful request writes *)
Lemma send_200_sent : forall ct body s w er s', send_200 A ct body s = (w, Ok (er, s')) -> all_sent w ->
  er = EST_ERR_NONE /\ sent w = ok_head ct (Some (str "base64")) (len body) ++ body.
Proof.
  intros ct body s w er s' H AS. unfold send_200 in H.
  match type of H with mbind (mg_write A ?d) _ ?s1 = _ => destruct (write_run A d s1) as (ok & s2 & Q & _ & _) end.
  apply mbind_inv in H as [[H _]|(e3 & ok' & s3 & e4 & H3 & H & ->)]; [rewrite Q in H; discriminate|].
  rewrite Q in H3. injection H3 as <- <- <-. cbn [Datatypes.app] in AS. apply all_sent_cons in AS as [-> AS]. cbn [negb] in H.
  destruct (write_run A body s2) as (ok2 & s4 & Q2 & _ & _).
  apply mbind_inv in H as [[H _]|(e5 & ok' & s5 & e6 & H5 & H & ->)]; [rewrite Q2 in H; discriminate|].
  rewrite Q2 in H5. injection H5 as <- <- <-. inversion H; subst. cbn [Datatypes.app] in AS. apply all_sent_cons in AS as [-> _].
  split; [reflexivity|]. cbn [Datatypes.app sent]. now rewrite app_nil_r.
Qed.
Definition enc_of (k : enroll_kind) : option bytes := match k with SERVERKEYGEN_REQ => None | _ => Some (str "base64") end.
Lemma outcome_sent : forall k crt kt s w er s', is_http C = true -> crt <> [] -> outcome C A k 0 crt kt s w er s' -> all_sent w ->
  er = EST_ERR_NONE /\ sent w = ok_head (Spec.Server.cert_type k) (enc_of k) (len (cert_body k crt kt)) ++ cert_body k crt kt.
Proof.
  intros k crt kt s w er s' Hh Nc H AS. unfold outcome in H. rewrite Hh in H.
  assert (L : 0 <? len crt = true) by (destruct crt; [congruence|rewrite len_cons; pose proof (len_nonneg _ crt); lia]).
  rewrite L in H. cbn [Z.eqb andb] in H. destruct k; [exact (send_200_sent _ _ _ _ _ _ H AS)|exact (send_200_sent _ _ _ _ _ _ H AS)|].
  apply write_all_sent in H as [-> Hs]; auto. split; [reflexivity|]. rewrite Hs. cbn [concat]. rewrite app_nil_r.
  assert (Q : pvt_key_hdr ++ kt ++ cert_hdr ++ crt ++ final_bndry_hdr = keygen_body kt crt).
  { unfold keygen_body, part, cert_hdr, final_bndry_hdr, boundary.
    change EOL with CRLF. rewrite <- !app_assoc. unfold render_header, hdr. cbn [fst snd]. change EOL with CRLF. rewrite <- !app_assoc. reflexivity. }
  replace (len pvt_key_hdr + len kt + len cert_hdr + len crt + len final_bndry_hdr) with (len (keygen_body kt crt)).
  2: { rewrite <- Q, !len_app. lia. }
  rewrite Q. reflexivity.
Qed.

(** A request that gets an answer from its operation, and one that is refused. *)
Lemma request_op : forall t method uri body ct authz s e rc s' o path, parse_uri uri = Ok (EST_ERR_NONE, Some o, path) ->
  request t method uri body ct authz s = (e, Ok (rc, s')) -> all_sent e ->
  (exists c eo ro so, run_op t authz c body path o s = (eo, Ok (ro, so)) /\ all_sent eo /\ is_done o ro = true /\ rc = EST_ERR_NONE
     /\ sent e = sent eo /\ exists a b, e = a ++ eo ++ b /\ silent a /\ silent b /\ Forall (fun x => ~ is_ca x) a /\ Forall (fun x => ~ is_ca x) b)
  \/ (rc <> EST_ERR_NONE /\ exists er s1 w s2, est_send_http_error A keep (c_retry C) er s1 = (w, Ok (tt, s2)) /\ all_sent w
     /\ ((e = start_ev C uri ++ w /\ er = rc)
         \/ exists c eo, run_op t authz c body path o s = (eo, Ok (rc, s1)) /\ is_done o rc = false /\ er = reported o rc /\ all_sent eo
            /\ e = start_ev C uri ++ req_ev O C o body ++ eo ++ rsp_ev O C o body rc ++ w)).
Proof.
  intros t method uri body ct authz s e rc s' o path Pu H AS. apply request_paths in H.
  pose proof (@start_silent cert key C uri) as S1. pose proof (@end_silent cert key C uri) as S2.
  inversion H; subst; try congruence.
  - right. apply all_sent_app in AS as [_ AS].
    assert (Ne : rc <> EST_ERR_NONE) by (intros ->; match goal with Q : refusal _ _ _ _ _ |- _ => destruct Q as [[Q _]|[[Q _]|[Q _]]] end; congruence).
    split; [exact Ne|]. do 4 eexists. split; [eassumption|]. split; [exact AS|]. left. auto.
  - match goal with Q : parse_uri uri = Ok (_, Some ?o1, ?p1) |- _ => assert (o1 = o /\ p1 = path) as [-> ->] by (rewrite Q in Pu; inversion Pu; auto) end.
    rewrite !all_sent_app in AS. destruct AS as (_ & _ & AS & _). left. do 4 eexists. split; [eassumption|]. split; [exact AS|]. split; [assumption|]. split; [reflexivity|].
    split.
    { rewrite sent_silent_l by auto. rewrite sent_silent_l by apply req_silent. rewrite sent_silent_r by (apply silent_app; split; auto; apply rsp_silent). auto. }
    exists (start_ev C uri ++ req_ev O C o body), (rsp_ev O C o body rc0 ++ end_ev C uri). split; [now rewrite <- !app_assoc|]. split; [apply silent_app; split; [auto|apply req_silent]|]. split; [apply silent_app; split; [apply rsp_silent|auto]|].
    split; apply Forall_app; split; apply nonpriv_nonca; first [apply start_nonpriv|apply req_nonpriv|apply rsp_nonpriv|apply end_nonpriv].
  - match goal with Q : parse_uri uri = Ok (_, Some ?o1, ?p1) |- _ => assert (o1 = o /\ p1 = path) as [-> ->] by (rewrite Q in Pu; inversion Pu; auto) end.
    rewrite !all_sent_app in AS. destruct AS as (_ & _ & AS & _ & AS2). right. split; [intros ->; match goal with Q : is_done _ _ = false |- _ => discriminate Q end|].
    do 4 eexists. split; [eassumption|]. split; [exact AS2|]. right. do 2 eexists. split; [eassumption|]. auto.
Qed.

Lemma enroll_sent : forall t authz c body path k s eo rc s' k1 crt kt, is_http C = true -> all_sent eo ->
  enroll_path O C A attrs_check t authz c body path k s eo (Ok (rc, s')) -> issued eo k1 crt kt ->
  rc = EST_ERR_NONE /\ sent eo = ok_head (Spec.Server.cert_type k) (enc_of k) (len (cert_body k crt kt)) ++ cert_body k crt kt.
Proof.
  intros * Hh AS H Is.
  assert (AU : forall ea x, auth_path O C A t authz path k body s ea x -> Forall (fun x => ~ is_ca x) ea).
  { intros * Q. apply nonpriv_nonca. eapply auths_nonpriv, auth_events; eauto. }
  assert (GR : forall ea au ro s1, auth_path O C A t authz path k body s ea (Ok (au, ro, s1)) -> granted au -> silent ea).
  { intros * Q G. destruct (auth_sends _ _ _ _ _ _ _ _ _ _ _ _ _ Q) as [[_ ?]|[-> _]]; auto. destruct G as [G|[G|G]]; discriminate. }
  assert (NI : forall e1, Forall (fun x => ~ is_ca x) e1 -> issued e1 k1 crt kt -> False) by (intros e1 F I; exact (nothing_issued _ _ _ _ F I)).
  inversion H; subst.
  - exfalso. eapply NI; [|exact Is]. constructor.
  - exfalso. eapply NI; [|exact Is]. constructor.
  - exfalso. eapply NI; [|exact Is]. match goal with Q : auth_path _ _ _ _ _ _ _ _ _ _ _ |- _ => exact (AU _ _ Q) end.
  - exfalso. eapply NI; [|exact Is]. eauto.
  - exfalso. eapply NI; [|exact Is]. apply Forall_app. split; eauto. constructor; [|constructor]. intros (? & ? & ? & ? & ? & ? & ? & ? & Z0); discriminate.
  - exfalso. eapply NI; [|exact Is]. apply Forall_app. split; eauto. eapply prepared_nonca; eauto.
  - exfalso. eapply NI; [|exact Is]. rewrite !Forall_app. split; eauto. split; [eapply prepared_nonca; eauto|eapply nonpriv_nonca, checks_nonpriv; eauto].
  - rename e into ea. set (pre := ea ++ mid ++ ec).
    assert (Si : silent pre).
    { unfold pre. rewrite !silent_app. split; eauto. split; [eapply prepared_silent; eauto|eapply checks_silent; eauto]. }
    assert (Nc : Forall (fun x => ~ is_ca x) pre).
    { unfold pre. rewrite !Forall_app. split; eauto. split; [eapply prepared_nonca; eauto|eapply nonpriv_nonca, checks_nonpriv; eauto]. }
    match goal with Q : outcome _ _ _ _ ?c1 ?t1 _ _ _ _ |- _ => rename Q into Ho; set (crt1 := c1) in *; set (kt1 := t1) in * end.
    set (x := EvCA k b uid (t_peer t) path rv crt1 kt1) in *.
    assert (Eq : ea ++ mid ++ ec ++ x :: w = pre ++ x :: w) by (unfold pre; now rewrite <- !app_assoc).
    rewrite Eq in *. clear Eq.
    assert (Wr : Forall (fun y => ~ is_ca y) w) by (eapply nonpriv_nonca, writes_nonpriv, outcome_writes; eauto).
    assert (Un : rv = 0 /\ crt1 = crt /\ kt1 = kt /\ crt <> []).
    { destruct Is as (N & b1 & u1 & p1 & pa1 & I). apply in_app_or in I as [I|[I|I]].
      - rewrite Forall_forall in Nc. destruct (Nc _ I). unfold is_ca. eauto 10.
      - unfold x in I. inversion I; subst. auto.
      - rewrite Forall_forall in Wr. destruct (Wr _ I). unfold is_ca. eauto 10. }
    destruct Un as (Un1 & Un2 & Un3 & Un4). rewrite Un1, Un2, Un3 in *.
    apply all_sent_app in AS as [_ AS]. assert (ASw : all_sent w) by (intros d ok I; apply (AS d); now right).
    rewrite sent_silent_l by auto. change (sent (x :: w)) with (sent w). eapply outcome_sent; eauto.
Qed.

Lemma enrollment_sent : forall t method uri body ct authz s e rc s' o path k1 crt kt, is_http C = true ->
  parse_uri uri = Ok (EST_ERR_NONE, Some o, path) -> enrolls o = true -> request t method uri body ct authz s = (e, Ok (rc, s')) -> all_sent e -> issued e k1 crt kt ->
  sent e = ok_head (Spec.Server.cert_type (kind_of o)) (enc_of (kind_of o)) (len (cert_body (kind_of o) crt kt)) ++ cert_body (kind_of o) crt kt.
Proof.
  intros t method uri body ct authz s e rc s' o path k1 crt kt Hh Pu En H AS Is.
  assert (NI : forall e1, Forall (fun x => ~ is_ca x) e1 -> issued e1 k1 crt kt -> False) by (intros e1 F I; exact (nothing_issued _ _ _ _ F I)).
  destruct (request_op _ _ _ _ _ _ _ _ _ _ _ _ Pu H AS) as [(c & eo & ro & so & R & ASo & _ & _ & Se & a & b & Ee & _ & _ & Na & Nb)|(Ne & er & s1 & w & s2 & Q & ASw & [(Ee & _)|(c & eo & R & Nd & _ & ASo & Ee)])].
  - rewrite Ee in Is. apply issued_app in Is as [Is|Is]; [destruct (NI _ Na Is)|]. apply issued_app in Is as [Is|Is]; [|destruct (NI _ Nb Is)].
    rewrite Se. apply (enroll_run O C A attrs_parse attrs_add_pop attrs_check keep) in R; [|exact En]. eapply proj2, enroll_sent; eauto.
  - exfalso. rewrite Ee in Is. pose proof (error_nonpriv A keep _ _ _ _ _ Q) as NP. apply issued_app in Is as [Is|Is]; (eapply NI; [|exact Is]; apply nonpriv_nonca); [apply start_nonpriv|exact NP].
  - exfalso. rewrite Ee in Is. pose proof (error_nonpriv A keep _ _ _ _ _ Q) as NP. rewrite !issued_app in Is.
    apply (enroll_run O C A attrs_parse attrs_add_pop attrs_check keep) in R; [|exact En].
    destruct Is as [Is|[Is|[Is|[Is|Is]]]]; try (eapply NI; [|exact Is]; apply nonpriv_nonca; first [apply start_nonpriv|apply req_nonpriv|apply rsp_nonpriv|exact NP]).
    destruct (enroll_sent _ _ _ _ _ _ _ _ _ _ _ _ _ Hh ASo R Is) as [-> _]. discriminate Nd.
Qed.

Lemma cacerts_sent : forall path s eo rc s', all_sent eo -> est_server_handle_cacerts C A path s = (eo, Ok (rc, s')) -> rc = EST_ERR_NONE ->
  exists d, sent eo = ok_head (str "application/pkcs7-mime") (Some (str "base64")) (len d) ++ d
    /\ ((a_cacerts A = None /\ c_cacerts C = Some d) \/ In (EvCacerts path (Some d)) eo).
Proof.
  intros path s eo rc s' AS H Rc. unfold est_server_handle_cacerts in H. destruct (a_cacerts A) as [f|].
  - apply mbind_inv in H as [[H Q]|(e1 & r & s1 & e2 & H1 & H & ->)]; [discriminate|].
    unfold call in H1. destruct (f (s_env s) path) as [e' x]. inversion H1; subst. clear H1.
    apply mbind_inv in H as [[H _]|(e3 & [] & s2 & e4 & H2 & H & ->)]; [discriminate|]. inversion H2; subst. clear H2.
    cbn [Datatypes.app] in *. destruct r as [d|]; [|inversion H].
    assert (AS4 : all_sent e4) by (intros ? ? I; eapply AS; right; eauto).
    apply send_200_sent in H as [_ H]; [|exact AS4]. exists d. split; [exact H|]. right. now left.
  - destruct (c_cacerts C) as [d|] eqn:Ec; [|inversion H; subst; discriminate].
    cbn [est_handle_cacerts] in H. apply send_200_sent in H as [_ H]; [|exact AS]. exists d. split; [exact H|]. left. auto.
Qed.

(** Where the text of a csrattrs answer comes from. *)
Definition attrs_source (path : option bytes) (e : list event) (d : bytes) : Prop :=
  (a_csrattrs A = None /\ c_csrattrs C = Some d) \/ In (EvCsrattrs path (Some d)) e
  \/ (c_pop C = true /\ (d = str "MAsGCSqGSIb3DQEJBw==" \/ exists b, In (EvCsrattrs path (Some b)) e /\ attrs_add_pop b = Ok (EST_ERR_NONE, d))).
Lemma send_attrs_sent : forall d s w er s', est_send_csrattr_data C A keep d s = (w, Ok (er, s')) -> all_sent w ->
  (exists x, d = Some x /\ x <> [] /\ sent w = ok_head (str "application/csrattrs") (Some (str "base64")) (len x) ++ x)
  \/ (exists s1 s2 w1, est_send_http_error A keep (c_retry C) EST_ERR_HTTP_NO_CONTENT s1 = (w1, Ok (tt, s2)) /\ all_sent w1 /\ sent w = sent w1).
Proof.
  intros d s w er s' H AS. unfold est_send_csrattr_data in H.
  assert (G : mbind (est_send_http_error A keep (c_retry C) EST_ERR_HTTP_NO_CONTENT) (fun _ => ret EST_ERR_NONE) s = (w, Ok (er, s')) ->
     exists s1 s2 w1, est_send_http_error A keep (c_retry C) EST_ERR_HTTP_NO_CONTENT s1 = (w1, Ok (tt, s2)) /\ all_sent w1 /\ sent w = sent w1).
  { intro Q. apply mbind_inv in Q as [[Q _]|(e1 & [] & s1 & e2 & H1 & Q & ->)].
    { destruct (writes_error A keep _ _ _ _ _ Q) as (_ & ? & ? & R & _). discriminate. }
    inversion Q; subst. rewrite app_nil_r in *. eauto 10. }
  destruct d as [[|x l]|]; try (right; exact (G H)).
  left. apply send_200_sent in H as [_ H]; [|exact AS]. exists (x :: l). split; [reflexivity|]. split; [discriminate|exact H].
Qed.
Lemma attrs_sent : forall t path s eo rc s', all_sent eo -> est_handle_csr_attrs C A attrs_parse attrs_add_pop keep t path s = (eo, Ok (rc, s')) -> rc = EST_ERR_NONE ->
  (exists d, d <> [] /\ sent eo = ok_head (str "application/csrattrs") (Some (str "base64")) (len d) ++ d /\ attrs_source path eo d)
  \/ (exists s1 s2 w, est_send_http_error A keep (c_retry C) EST_ERR_HTTP_NO_CONTENT s1 = (w, Ok (tt, s2)) /\ all_sent w /\ sent eo = sent w).
Proof.
  intros t path s eo rc s' AS H Rc. unfold est_handle_csr_attrs in H. unfold attrs_source.
  destruct (a_csrattrs A) as [f|].
  - apply mbind_inv in H as [[H Q]|(e1 & r & s1 & e2 & H1 & H & ->)]; [discriminate|].
    unfold call in H1. destruct (f (s_env s) path (t_peer t)) as [e' x]. inversion H1; subst e1 r s1. clear H1.
    apply mbind_inv in H as [[H _]|(e3 & [] & s2 & e4 & H2 & H & ->)]; [discriminate|]. inversion H2; subst e3 s2. clear H2.
    cbn [Datatypes.app] in *.
    assert (AS4 : all_sent e4) by (intros ? ? I; eapply AS; right; eauto).
    change (sent (EvCsrattrs path x :: e4)) with (sent e4).
    assert (W : forall d, est_send_csrattr_data C A keep d {| s_env := e'; s_uid := s_uid s; s_code := s_code s |} = (e4, Ok (rc, s')) ->
      (forall y, d = Some y -> y <> [] -> In (EvCsrattrs path (Some y)) (EvCsrattrs path x :: e4)
         \/ (c_pop C = true /\ (y = str "MAsGCSqGSIb3DQEJBw==" \/ exists b, In (EvCsrattrs path (Some b)) (EvCsrattrs path x :: e4) /\ attrs_add_pop b = Ok (EST_ERR_NONE, y)))) ->
      (exists d, d <> [] /\ sent e4 = ok_head (str "application/csrattrs") (Some (str "base64")) (len d) ++ d
         /\ ((Some f = None /\ c_csrattrs C = Some d) \/ In (EvCsrattrs path (Some d)) (EvCsrattrs path x :: e4)
           \/ (c_pop C = true /\ (d = str "MAsGCSqGSIb3DQEJBw==" \/ exists b, In (EvCsrattrs path (Some b)) (EvCsrattrs path x :: e4) /\ attrs_add_pop b = Ok (EST_ERR_NONE, d)))))
      \/ (exists s1 s2 w, est_send_http_error A keep (c_retry C) EST_ERR_HTTP_NO_CONTENT s1 = (w, Ok (tt, s2)) /\ all_sent w /\ sent e4 = sent w)).
    { intros d Q Src. destruct (send_attrs_sent _ _ _ _ _ Q AS4) as [(y & -> & Ny & Sy)|R]; [left|right; exact R].
      exists y. split; [exact Ny|]. split; [exact Sy|]. right. exact (Src y eq_refl Ny). }
    destruct x as [[|x l]|].
    + eapply W; [exact H|]. intros y Ey Ny. destruct (c_pop C) eqn:Ep; [|injection Ey as <-; contradiction]. right. split; [reflexivity|]. left. now injection Ey as <-.
    + destruct (attrs_parse (x :: l)) as [[er p]|] eqn:Ep; [|discriminate].
      change (lift (Ok (er, p))) with (@ret cert key E _ (er, p)) in H. rewrite mbind_ret in H. cbv iota beta in H.
      destruct (err_none_dec er) as [->|[Ne _]].
      2: { exfalso. destruct er; try congruence; inversion H; subst; congruence. }
      destruct (c_pop C && negb p) eqn:Ec.
      * destruct (attrs_add_pop (x :: l)) as [[er b2]|] eqn:Eb; [|discriminate].
        change (lift (Ok (er, b2))) with (@ret cert key E _ (er, b2)) in H. rewrite mbind_ret in H. cbv iota beta in H.
        destruct (err_none_dec er) as [->|[Ne _]].
        2: { exfalso. destruct er; try congruence; inversion H; subst; congruence. }
        eapply W; [exact H|]. intros y Ey Ny. injection Ey as <-. right. split; [now apply andb_true_iff in Ec as [Ec _]|]. right. exists (x :: l). split; [now left|exact Eb].
      * eapply W; [exact H|]. intros y Ey Ny. injection Ey as <-. left. now left.
    + eapply W; [exact H|]. intros y Ey Ny. destruct (c_pop C) eqn:Ep; [|discriminate]. right. split; [reflexivity|]. left. now injection Ey as <-.
  - destruct (c_csrattrs C) as [d|] eqn:Ec.
    + destruct (send_attrs_sent _ _ _ _ _ H AS) as [(y & Ey & Ny & Sy)|R]; [left|right; exact R]. injection Ey as <-. exists d. auto 10.
    + destruct (c_pop C) eqn:Ep; cbn [negb] in H; [|inversion H; subst; discriminate].
      destruct (send_attrs_sent _ _ _ _ _ H AS) as [(y & Ey & Ny & Sy)|R]; [left|right; exact R]. injection Ey as <-. exists (str "MAsGCSqGSIb3DQEJBw=="). split; [discriminate|]. split; [exact Sy|]. auto 10.
Qed.

Lemma retry_error : forall delay s w er s', send_http_retry_after A delay s = (w, Ok (er, s')) -> all_sent w -> 0 <= delay ->
  er = EST_ERR_NONE /\ est_send_http_error A keep delay EST_ERR_CA_ENROLL_RETRY s = (w, Ok (tt, s')).
Proof.
  intros delay s w er s' H AS Hd. destruct (retry_replies A delay s w er s' Hd H AS) as (-> & _). split; [reflexivity|].
  unfold est_send_http_error. rewrite (mbind_eq _ _ _ _ _ _ _ _ H). cbn. now rewrite app_nil_r.
Qed.
Lemma voucher_sent : forall t authz c body path s e rc s', Spec.Server.sane C A -> 0 <= c_brski_retry C ->
  brski_voucher_req O C A t authz c body path s = (e, Ok (rc, s')) -> all_sent e ->
  (rc = EST_ERR_NONE /\ exists rv v, called_once e OP_BRSKI_REQ_VOUCHER body (t_peer t) rv v
     /\ ((rv = 1 /\ v <> [] /\ sent e = ok_head (str "application/voucher+cms") (Some (str "base64")) (len v) ++ v)
         \/ (rv = 2 /\ exists s1 s2 w, est_send_http_error A keep (c_brski_retry C) EST_ERR_CA_ENROLL_RETRY s1 = (w, Ok (tt, s2)) /\ all_sent w /\ sent e = sent w)))
  \/ (rc <> EST_ERR_NONE).
Proof.
  intros * Hs Hr H AS. unfold brski_voucher_req in H. destruct (a_voucher A) as [f|]; [|inversion H; right; discriminate].
  destruct (negb _ && negb _); [inversion H; right; discriminate|].
  apply (authed_cases O C A) in H as [(ea & s1 & em & -> & NC & Si & H & ASm)|[(-> & _)|(-> & _)]]; auto; try (right; discriminate).
  apply mbind_inv in H as [[H _]|(e1 & [rv v] & s2 & e2 & H1 & H & ->)].
  { destruct (@call_run cert key E _ (fun env => f env body (t_peer t)) s1) as (x & s3 & Q). rewrite Q in H. discriminate. }
  destruct (@call_run cert key E _ (fun env => f env body (t_peer t)) s1) as (x & s3 & Q). rewrite Q in H1. injection H1 as <- _ _.
  apply mbind_inv in H as [[H _]|(e3 & [] & s4 & e4 & H3 & H & ->)]; [discriminate|]. inversion H3; subst. clear H3.
  cbn [Datatypes.app] in *. set (x0 := EvVoucher OP_BRSKI_REQ_VOUCHER body (t_peer t) rv v) in *.
  assert (AS4 : all_sent e4) by (change (x0 :: e4) with ([x0] ++ e4) in ASm; now apply all_sent_app in ASm).
  assert (SE : sent (ea ++ x0 :: e4) = sent e4) by (rewrite (sent_silent_l ea) by auto; reflexivity).
  rewrite SE. assert (Once : forall w, Forall is_write w -> called_once (ea ++ x0 :: w) OP_BRSKI_REQ_VOUCHER body (t_peer t) rv v).
  { intros w Fw. exists ea, w. split; [reflexivity|]. split; [exact NC|]. now apply writes_not_called. }
  destruct ((rv =? 1) && (0 <? len v)) eqn:B1.
  - pose proof (proj1 (writes_200 A (str "application/voucher+cms") v _ _ _ H)) as Fw. apply send_200_sent in H as [-> H]; [|exact AS4].
    left. split; [reflexivity|]. exists rv, v. split; [now apply Once|]. left. split; [lia|]. split; [intros ->; rewrite andb_false_r in B1; discriminate|exact H].
  - destruct (rv =? 2) eqn:B2; [|inversion H; right; discriminate].
    apply mbind_inv in H as [[H Q2]|(e5 & er & s5 & e6 & H5 & H & ->)]; [discriminate|].
    inversion H; subst. rewrite app_nil_r in *. pose proof (proj1 (writes_retry A _ _ _ _ H5)) as Fw.
    apply retry_error in H5 as [-> H5]; auto. left. split; [reflexivity|]. exists rv, v. split; [now apply Once|]. right. split; [lia|]. eauto 10.
Qed.

(** An enrollment that is answered without a certificate is challenged. *)
Lemma enroll_done : forall t authz c body path k s eo rc s', is_http C = true -> all_sent eo ->
  enroll_path O C A attrs_check t authz c body path k s eo (Ok (rc, s')) ->
  (rc = EST_ERR_NONE -> exists crt kt, issued eo k crt kt)
  /\ (rc = EST_ERR_AUTH_PENDING -> (forall k1 crt kt, ~ issued eo k1 crt kt) /\ exists w s0 s1, mg_send_authorization_request C A s0 = (w, Ok (tt, s1)) /\ sent eo = sent w)
  /\ (rc <> EST_ERR_NONE -> rc <> EST_ERR_AUTH_PENDING -> silent eo).
Proof.
  intros * Hh AS H.
  assert (AU : forall ea x, auth_path O C A t authz path k body s ea x -> Forall (fun x => ~ is_ca x) ea).
  { intros * Q. apply nonpriv_nonca. eapply auths_nonpriv, auth_events; eauto. }
  assert (GR : forall ea au ro s1, auth_path O C A t authz path k body s ea (Ok (au, ro, s1)) -> granted au -> silent ea).
  { intros * Q G. destruct (auth_sends _ _ _ _ _ _ _ _ _ _ _ _ _ Q) as [[_ ?]|[-> _]]; auto. destruct G as [G|[G|G]]; discriminate. }
  assert (Tr : forall e1, rc <> EST_ERR_NONE -> rc <> EST_ERR_AUTH_PENDING -> silent e1 ->
    (rc = EST_ERR_NONE -> exists crt kt, issued e1 k crt kt)
    /\ (rc = EST_ERR_AUTH_PENDING -> (forall k1 crt kt, ~ issued e1 k1 crt kt) /\ exists w s0 s1, mg_send_authorization_request C A s0 = (w, Ok (tt, s1)) /\ sent e1 = sent w)
    /\ (rc <> EST_ERR_NONE -> rc <> EST_ERR_AUTH_PENDING -> silent e1)).
  { intros e1 N1 N2 S. split; [congruence|]. split; [congruence|auto]. }
  inversion H; subst.
  - apply Tr; try discriminate. constructor.
  - apply Tr; try discriminate. constructor.
  - match goal with Q : _ \/ _ \/ _ |- _ => destruct Q as [[-> ->]|[[-> ->]|[-> ->]]] end;
    match goal with Q : auth_path _ _ _ _ _ _ _ _ _ _ _ |- _ => pose proof (AU _ _ Q) as NC; destruct (auth_sends _ _ _ _ _ _ _ _ _ _ _ _ _ Q) as [[N Si]|(Au & _ & w & s0 & l & -> & Sl & Hw)] end;
    try congruence; try discriminate Au; try (apply Tr; [discriminate|discriminate|exact Si]).
    split; [discriminate|]. split; [|intros _ Q; now destruct Q]. intros _. split; [intros k1 crt kt I; exact (nothing_issued _ _ _ _ NC I)|].
    exists w, s0, s'. split; [exact Hw|]. now rewrite sent_silent_r by auto.
  - apply Tr; try discriminate. eauto.
  - assert (Q : rc = EST_ERR_NO_KEY \/ rc = EST_ERR_BAD_PKCS10 \/ rc = EST_ERR_X509_SIGN) by tauto.
    apply Tr; [intros ->; intuition discriminate|intros ->; intuition discriminate|]. apply silent_app. split; eauto. constructor; [intros (? & ? & Z0); discriminate Z0|constructor].
  - apply Tr; try discriminate. apply silent_app. split; eauto. eapply prepared_silent; eauto.
  - assert (N : rc = EST_ERR_AUTH_FAIL_TLSUID \/ rc = EST_ERR_CSR_ATTR_MISSING).
    { match goal with Q : checks_path _ _ _ _ _ _ _ _ _ _ |- _ => inversion Q; subst; auto; congruence end. }
    apply Tr; [intros ->; intuition discriminate|intros ->; intuition discriminate|].
    rewrite !silent_app. split; eauto. split; [eapply prepared_silent; eauto|eapply checks_silent; eauto].
  - match goal with Q : outcome _ _ _ _ _ _ _ _ _ _ |- _ => rename Q into Ho end.
    assert (ASw : all_sent w). { rewrite !all_sent_app in AS. destruct AS as (_ & _ & _ & AS). intros d ok I. apply (AS d). now right. }
    destruct (Z.eq_dec rv 0) as [->|Nz]; [destruct crt as [|c0 crt]|].
    + apply (outcome_bad C A keep) in Ho as (-> & -> & ->); [|right; reflexivity]. cbn [Z.eqb].
      split; [discriminate|]. split; [discriminate|]. intros _ _. rewrite !silent_app. split; [eauto|]. split; [eapply prepared_silent; eauto|]. split; [eapply checks_silent; eauto|]. constructor; [intros (? & ? & Z0); discriminate Z0|constructor].
    + apply outcome_sent in Ho as [-> _]; auto; [|discriminate]. split; [|split; [discriminate|congruence]]. intros _.
      exists (c0 :: crt), kt. split; [discriminate|]. do 4 eexists. rewrite !in_app_iff. right. right. right. left. reflexivity.
    + apply (outcome_bad C A keep) in Ho as (-> & -> & ->); [|left; exact Nz]. destruct (rv =? 26); (split; [discriminate|]; split; [discriminate|]; intros _ _; rewrite !silent_app; split; [eauto|]; split; [eapply prepared_silent; eauto|]; split; [eapply checks_silent; eauto|]; constructor; [intros (? & ? & Z0); discriminate Z0|constructor]).
Qed.
End P.
