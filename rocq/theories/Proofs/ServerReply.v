(** What the server sends. *)
From Coq Require Import String ZArith List Bool Lia ZifyBool ZifyNat.
From Verif Require Import Base Spec.Http Spec.Server Model.CLib Model.Codec Model.EstErr Model.HttpServer Model.Uri
  Model.AuthHdr Model.Server Proofs.AuthHdr Proofs.ServerAuth Proofs.ServerEnroll Proofs.ServerRequest Proofs.ServerProps Proofs.ServerCA.
Import ListNotations.
Open Scope Z_scope.

(** ** Decimal output *)
Definition dval (v : bytes) (a : Z) : Z := fold_left (fun a c => 10 * a + (c - 48)) v a.
Lemma dec_digits_spec : forall f z acc, 0 <= z -> z < 2 ^ Z.of_nat f -> (0 < f)%nat ->
  exists d, dec_digits f z acc = d ++ acc /\ d <> [] /\ Forall (fun c => 48 <= c <= 57) d /\ dval d 0 = z.
Proof.
  induction f as [|f IH]; intros z acc Hz Hb Hf; [lia|]. cbn [dec_digits].
  pose proof (Z.mod_pos_bound z 10 ltac:(lia)) as Hm.
  destruct (z <? 10) eqn:Ez.
  - exists [48 + z mod 10]. repeat split; [discriminate|constructor; [lia|constructor]|]. unfold dval. cbn [fold_left].
    rewrite Z.mod_small by lia. lia.
  - assert (Hq : z / 10 < 2 ^ Z.of_nat f).
    { apply Z.div_lt_upper_bound; [lia|]. rewrite Nat2Z.inj_succ, Z.pow_succ_r in Hb by lia. lia. }
    assert (Hf' : (0 < f)%nat). { destruct f; [|lia]. cbn in Hq. pose proof (Z.div_le_lower_bound z 10 1). lia. }
    destruct (IH (z / 10) ((48 + z mod 10) :: acc)) as (d & -> & N & F & V); [apply Z.div_pos; lia|auto|auto|].
    exists (d ++ [48 + z mod 10]). rewrite <- app_assoc. repeat split; [destruct d; discriminate| |].
    + apply Forall_app. split; auto. constructor; [lia|constructor].
    + unfold dval in *. rewrite fold_left_app. cbn [fold_left]. rewrite V. pose proof (Z.div_mod z 10). lia.
Qed.
Lemma print_int_decimal : forall z, 0 <= z -> decimal (print_int z) z.
Proof.
  intros z Hz. unfold print_int. replace (z <? 0) with false by lia.
  destruct (dec_digits_spec (S (Z.to_nat (Z.log2 z))) z []) as (d & -> & N & F & V); [auto| |lia|].
  - rewrite Nat2Z.inj_succ, Z2Nat.id by apply Z.log2_nonneg. destruct (Z.eq_dec z 0) as [->|]; [cbn; lia|].
    apply Z.log2_spec; lia.
  - rewrite app_nil_r. repeat split; auto.
Qed.

Definition one_lineb (v : bytes) : bool := forallb (fun c => negb (c =? 13) && negb (c =? 10)) v.
Lemma one_lineb_ok : forall v, one_lineb v = true -> one_line v.
Proof. intros v H. apply Forall_forall. intros c I. unfold one_lineb in H. rewrite forallb_forall in H. specialize (H c I). lia. Qed.
Lemma one_line_app : forall a b, one_line a -> one_line b -> one_line (a ++ b).
Proof. intros. now apply Forall_app. Qed.
Lemma decimal_line : forall v n, decimal v n -> one_line v.
Proof. intros v n (_ & F & _). eapply Forall_impl; [|exact F]. cbn. lia. Qed.
Ltac line := first [apply one_lineb_ok; vm_compute; reflexivity | eapply decimal_line, print_int_decimal; lia | assumption].

Lemma decimal_lit : forall v n, forallb (fun c => (48 <=? c) && (c <=? 57)) v = true -> negb (len v =? 0) = true ->
  dval v 0 = n -> decimal v n.
Proof.
  intros v n F L V. split; [intros ->; discriminate|]. split; [|now subst].
  apply Forall_forall. intros c I. rewrite forallb_forall in F. specialize (F c I). lia.
Qed.
Ltac num := apply decimal_lit; vm_compute; reflexivity.

Lemma retry_dec : forall e, e = EST_ERR_CA_ENROLL_RETRY \/ e <> EST_ERR_CA_ENROLL_RETRY.
Proof. intro e. destruct e; (left; reflexivity) || (right; discriminate). Qed.

Section P.
Context {cert csr key E : Type}.
Variable O : @ossl cert csr key.
Variable C : @config cert.
Variable A : @app cert key E.
Variable keep : Z -> bool.

Notation event := (@event cert key).
Notation st := (@st E).
Implicit Types (e w : list event) (s : st).

Lemma sent_app : forall e w, sent (e ++ w) = sent e ++ sent w.
Proof. induction e as [|[] e IH]; intro w; cbn [sent Datatypes.app]; auto. now rewrite IH, app_assoc. Qed.
Lemma all_sent_app : forall e w, all_sent (e ++ w) <-> all_sent e /\ all_sent w.
Proof.
  intros e w. unfold all_sent. split.
  - intro H. split; intros; eapply H; apply in_or_app; eauto.
  - intros [H1 H2] d ok I. apply in_app_or in I as []; eauto.
Qed.
Lemma sent_none : forall e, Forall (fun x => ~ is_write x) e -> sent e = [].
Proof.
  induction e as [|x e IH]; intro F; auto. inversion F; subst. destruct x; cbn [sent]; auto. exfalso. apply H1. now eexists _, _.
Qed.
Lemma all_sent_cons : forall d ok w, all_sent (EvWrite d ok :: w) <-> ok = true /\ all_sent w.
Proof.
  intros. unfold all_sent. split.
  - intro H. split; [apply (H d); now left|]. intros; eapply H; now right; eauto.
  - intros [-> H] d' ok' [Q|Q]; [inversion Q; now subst|eauto].
Qed.
Lemma all_sent_nil : all_sent (@nil event).
Proof. intros ? ? []. Qed.

Lemma write_run : forall d s, exists ok s', mg_write A d s = ([EvWrite d ok], Ok (ok, s')) /\ s_uid s' = s_uid s /\ s_code s' = s_code s.
Proof.
  intros. unfold mg_write, mbind, call, emit, ret. destruct (a_write A (s_env s) d) as [e' ok]. eexists ok, _. cbn. auto.
Qed.

Lemma head_response : forall code num reason hs body, decimal num code -> len num = 3 -> one_line reason ->
  Forall (fun h => one_line (fst h) /\ one_line (snd h)) hs ->
  response (str "HTTP/1.1 " ++ num ++ str " " ++ reason ++ CRLF ++ concat (map render_header hs) ++ CRLF ++ body) code hs body.
Proof. intros. exists num, reason. auto. Qed.

Ltac wr s := match goal with |- context [mbind (mg_write A ?d) ?f s] =>
  let ok := fresh "ok" in let s' := fresh "s" in let Q := fresh in
  destruct (write_run d s) as (ok & s' & Q & ? & ?); rewrite (mbind_eq _ _ _ _ _ _ _ _ Q) end.

Lemma error0_replies : forall code reason text s w r, 0 <= code -> len (print_int code) = 3 -> one_line reason ->
  mg_send_http_error A keep code reason text s = (w, r) -> all_sent w ->
  exists s' hs body, r = Ok (tt, s') /\ response (sent w) code hs body /\ framed code hs body /\ s_code s' = code
    /\ (code = 204 -> body = []).
Proof.
  intros code reason text s w r Hc H3d Hr H AS. unfold mg_send_http_error in H.
  set (buf := if (199 <? code) && negb (code =? 204) && negb (code =? 304) then _ else _) in *.
  assert (B4 : code = 204 -> buf = []) by (unfold buf; intros ->; reflexivity). clearbody buf.
  apply mbind_inv in H as [[H _]|(e1 & [] & s1 & e2 & H1 & H & ->)]; [discriminate|]. inversion H1; subst. clear H1.
  match type of H with mbind (mg_write A ?d) _ ?s1 = _ => destruct (write_run d s1) as (ok & s2 & Q & _ & Cd) end.
  apply mbind_inv in H as [[H _]|(e3 & ok' & s3 & e4 & H3 & H & ->)]; [rewrite Q in H; discriminate|].
  rewrite Q in H3. injection H3 as <- <- <-. clear Q. cbn [s_code] in Cd. cbn [Datatypes.app] in *.
  set (hs := [(str "Content-Length", print_int (len buf)); (str "Connection", if keep code then str "keep-alive" else str "close")]).
  assert (R : response ((str "HTTP/1.1 " ++ print_int code ++ str " " ++ reason ++ EOL
            ++ hdr (str "Content-Length") (print_int (len buf))
            ++ hdr (str "Connection") (if keep code then str "keep-alive" else str "close") ++ EOL) ++ buf) code hs buf).
  { match goal with |- response ?d _ _ _ =>
      replace d with (str "HTTP/1.1 " ++ print_int code ++ str " " ++ reason ++ CRLF ++ concat (map render_header hs) ++ CRLF ++ buf) end.
    2: { unfold hs, hdr, render_header, CRLF, EOL. cbn [map concat fst snd]. now rewrite <- !app_assoc. }
    apply head_response; auto; [now apply print_int_decimal|].
    constructor; [split; [line|]|constructor; [split; [line|]|constructor]]; cbn [snd].
    - eapply decimal_line, print_int_decimal, len_nonneg.
    - destruct (keep code); line. }
  assert (F : framed code hs buf).
  { left. exists (print_int (len buf)). split; [|apply print_int_decimal, len_nonneg].
    exists [], (str "Content-Length"), (tl hs). repeat split. constructor. }
  destruct buf as [|b0 buf].
  - inversion H; subst. exists s2, hs, []. cbn [sent]. auto.
  - match type of H with mbind (mg_write A ?d) _ ?s1 = _ => destruct (write_run d s1) as (ok2 & s4 & Q & _ & Cd2) end.
    apply mbind_inv in H as [[H _]|(e5 & ok' & s5 & e6 & H5 & H & ->)]; [rewrite Q in H; discriminate|].
    rewrite Q in H5. injection H5 as <- <- <-. inversion H; subst. exists s4, hs, (b0 :: buf). cbn [Datatypes.app sent].
    rewrite app_nil_r. repeat split; auto.
Qed.

Lemma error_reply_spec : forall er, er <> EST_ERR_CA_ENROLL_RETRY -> exists reason text,
  error_reply er = (http_status er, reason, text) /\ one_line reason /\ 0 <= http_status er /\ len (print_int (http_status er)) = 3.
Proof. intros er H. destruct er; try congruence; eexists _, _; (split; [reflexivity|split; [line|split; [cbn; lia|reflexivity]]]). Qed.

Theorem error_replies : forall delay er s w r, 0 <= delay -> est_send_http_error A keep delay er s = (w, r) -> all_sent w ->
  exists s' hs body, r = Ok (tt, s') /\ response (sent w) (http_status er) hs body /\ framed (http_status er) hs body
    /\ s_code s' = http_status er /\ (http_status er = 204 -> body = [])
    /\ (er = EST_ERR_CA_ENROLL_RETRY -> exists v, first_header hs (str "Retry-After") v /\ decimal v delay).
Proof.
  intros delay er s w r Hd H AS. unfold est_send_http_error in H.
  destruct (retry_dec er) as [->|N].
  - apply mbind_inv in H as [[H _]|(e1 & rv & s1 & e2 & H1 & H & ->)].
    { destruct (writes_retry A _ _ _ _ H) as (_ & x & s' & Q & _). discriminate. }
    unfold send_http_retry_after in H1.
    apply mbind_inv in H1 as [[H1 _]|(e3 & [] & s2 & e4 & H2 & H1 & ->)]; [discriminate|]. inversion H2; subst. clear H2.
    match type of H1 with mbind (mg_write A ?d) _ ?s1 = _ => destruct (write_run d s1) as (ok & s3 & Q & _ & Cd) end.
    apply mbind_inv in H1 as [[H1 _]|(e5 & ok' & s5 & e6 & H5 & H1 & ->)]; [rewrite Q in H1; discriminate|].
    rewrite Q in H5. injection H5 as <- <- <-. injection H1 as <- <- <-. cbn [Datatypes.app] in *.
    apply all_sent_cons in AS as [-> AS]. injection H as <- <-. exists s3.
    set (hs := [(str "Status", str "202 Accepted"); (str "Retry-After", print_int delay)]).
    exists hs, []. split; [reflexivity|]. split.
    { cbn [sent]. rewrite app_nil_r.
      match goal with |- response ?d _ _ _ =>
        replace d with (str "HTTP/1.1 " ++ str "202" ++ str " " ++ str "Accepted" ++ CRLF ++ concat (map render_header hs) ++ CRLF ++ []) end.
      2: { unfold hs, hdr, render_header, CRLF, EOL. cbn [map concat fst snd]. rewrite <- !app_assoc. reflexivity. }
      apply head_response; [|reflexivity|line|].
      - num.
      - constructor; [split; line|constructor; [split; line|constructor]]. }
    split. { right. repeat split. repeat (constructor; [vm_compute; discriminate|]). constructor. }
    split; [auto|]. split; [auto|]. intros _. exists (print_int delay). split; [|now apply print_int_decimal].
    exists [(str "Status", str "202 Accepted")], (str "Retry-After"), []. repeat split. constructor; [vm_compute; discriminate|constructor].
  - destruct (error_reply_spec er N) as (reason & text & Er & L & P & P3).
    assert (H' : (let '(st, reason, text) := error_reply er in mg_send_http_error A keep st reason text) s = (w, r)).
    { destruct er; try congruence; exact H. }
    rewrite Er in H'. destruct (error0_replies _ _ _ _ _ _ P P3 L H' AS) as (s' & hs & body & -> & R & F & Cd & B4).
    exists s', hs, body. repeat split; auto. congruence.
Qed.

Definition ok_headers (ct : bytes) (enc : option bytes) (n : Z) : list (bytes * bytes) :=
  [(str "Status", str "200 OK"); (str "Content-Type", ct)]
  ++ match enc with Some x => [(str "Content-Transfer-Encoding", x)] | None => [] end ++ [(str "Content-Length", print_int n)].
Lemma ok_head_response : forall ct enc body, one_line ct -> (forall x, enc = Some x -> one_line x) ->
  response (ok_head ct enc (len body) ++ body) 200 (ok_headers ct enc (len body)) body
  /\ framed 200 (ok_headers ct enc (len body)) body.
Proof.
  intros ct enc body Hc He. split.
  - match goal with |- response ?d _ _ _ =>
      replace d with (str "HTTP/1.1 " ++ str "200" ++ str " " ++ str "OK" ++ CRLF ++ concat (map render_header (ok_headers ct enc (len body))) ++ CRLF ++ body) end.
    2: { unfold ok_headers, ok_head, hdr, render_header, CRLF, EOL. destruct enc; rewrite ?map_app, ?concat_app; cbn [map concat fst snd]; rewrite <- !app_assoc; reflexivity. }
    apply head_response; [|reflexivity|line|].
    + num.
    + unfold ok_headers. apply Forall_app. split; [constructor; [split; line|constructor; [split; line|constructor]]|].
      apply Forall_app. split; [|constructor; [split; [line|eapply decimal_line, print_int_decimal, len_nonneg]|constructor]].
      destruct enc; [|constructor]. constructor; [|constructor]. split; [line|]. cbn. auto.
  - left. exists (print_int (len body)). split; [|apply print_int_decimal, len_nonneg].
    exists ([(str "Status", str "200 OK"); (str "Content-Type", ct)]
            ++ match enc with Some x => [(str "Content-Transfer-Encoding", x)] | None => [] end), (str "Content-Length"), [].
    split; [unfold ok_headers; now rewrite <- app_assoc|]. split; [reflexivity|].
    apply Forall_app. split; [repeat (constructor; [vm_compute; discriminate|]); constructor|].
    destruct enc; repeat (constructor; [vm_compute; discriminate|]); constructor.
Qed.

Lemma send_200_replies : forall ct body s w er s', one_line ct -> send_200 A ct body s = (w, Ok (er, s')) -> all_sent w ->
  er = EST_ERR_NONE /\ exists hs, response (sent w) 200 hs body /\ framed 200 hs body /\ first_header hs (str "Content-Type") ct.
Proof.
  intros ct body s w er s' L H AS. unfold send_200 in H.
  match type of H with mbind (mg_write A ?d) _ ?s1 = _ => destruct (write_run d s1) as (ok & s2 & Q & _ & _) end.
  apply mbind_inv in H as [[H _]|(e3 & ok' & s3 & e4 & H3 & H & ->)]; [rewrite Q in H; discriminate|].
  rewrite Q in H3. injection H3 as <- <- <-. cbn [Datatypes.app] in AS. apply all_sent_cons in AS as [-> AS]. cbn [negb] in H.
  destruct (write_run body s2) as (ok2 & s4 & Q2 & _ & _).
  apply mbind_inv in H as [[H _]|(e5 & ok' & s5 & e6 & H5 & H & ->)]; [rewrite Q2 in H; discriminate|].
  rewrite Q2 in H5. injection H5 as <- <- <-. inversion H; subst. cbn [Datatypes.app] in AS. apply all_sent_cons in AS as [-> _].
  split; [reflexivity|]. exists (ok_headers ct (Some (str "base64")) (len body)). cbn [Datatypes.app sent]. rewrite app_nil_r.
  destruct (ok_head_response ct (Some (str "base64")) body L) as [R F]. { intros x Q3. inversion Q3. line. }
  repeat split; auto. exists [(str "Status", str "200 OK")], (str "Content-Type"), (skipn 2 (ok_headers ct (Some (str "base64")) (len body))).
  split; [reflexivity|]. split; [reflexivity|]. constructor; [vm_compute; discriminate|constructor].
Qed.

Lemma write_all_sent : forall l s w er s', write_all A l s = (w, Ok (er, s')) -> all_sent w -> er = EST_ERR_NONE /\ sent w = concat l.
Proof.
  induction l as [|d l IH]; intros s w er s' H AS; cbn [write_all] in H.
  - inversion H; subst. auto.
  - destruct (write_run d s) as (ok & s2 & Q & _ & _).
    apply mbind_inv in H as [[H _]|(e3 & ok' & s3 & e4 & H3 & H & ->)]; [rewrite Q in H; discriminate|].
    rewrite Q in H3. injection H3 as <- <- <-. cbn [Datatypes.app] in AS. apply all_sent_cons in AS as [-> AS].
    destruct (IH _ _ _ _ H AS) as [-> Hs]. split; auto. cbn [Datatypes.app sent concat]. now rewrite Hs.
Qed.

(** ** Outcomes of an enrollment *)
Lemma outcome_good : forall k crt kt s w er s', is_http C = true -> crt <> [] -> outcome C A k 0 crt kt s w er s' -> all_sent w ->
  er = EST_ERR_NONE /\ exists hs, response (sent w) 200 hs (cert_body k crt kt) /\ framed 200 hs (cert_body k crt kt)
    /\ first_header hs (str "Content-Type") (cert_type k).
Proof.
  intros k crt kt s w er s' Hh Nc H AS. unfold outcome in H. rewrite Hh in H.
  assert (L : 0 <? len crt = true) by (destruct crt; [congruence|rewrite len_cons; pose proof (len_nonneg _ crt); lia]).
  rewrite L in H. cbn [Z.eqb andb] in H.
  destruct k.
  - refine (send_200_replies _ _ _ _ _ _ _ H AS). line.
  - refine (send_200_replies _ _ _ _ _ _ _ H AS). line.
  -
  apply write_all_sent in H as [-> Hs]; auto. split; auto.
  set (ct := str "multipart/mixed; boundary=" ++ boundary) in *.
  assert (Lt : one_line ct) by line.
  destruct (ok_head_response ct None (keygen_body kt crt) Lt) as [R F]; [intros ? Q; discriminate|].
  exists (ok_headers ct None (len (keygen_body kt crt))). unfold cert_body. split; [|split; auto].
  2: { exists [(str "Status", str "200 OK")], (str "Content-Type"), (skipn 2 (ok_headers ct None (len (keygen_body kt crt)))).
       split; [reflexivity|]. split; [reflexivity|]. constructor; [vm_compute; discriminate|constructor]. }
  rewrite Hs. cbn [concat]. rewrite app_nil_r.
  assert (Q : pvt_key_hdr ++ kt ++ cert_hdr ++ crt ++ final_bndry_hdr = keygen_body kt crt).
  { unfold keygen_body, part, cert_hdr, final_bndry_hdr, boundary.
    change EOL with CRLF. rewrite <- !app_assoc. unfold render_header, hdr. cbn [fst snd]. change EOL with CRLF. rewrite <- !app_assoc. reflexivity. }
  replace (len pvt_key_hdr + len kt + len cert_hdr + len crt + len final_bndry_hdr) with (len (keygen_body kt crt)).
  2: { rewrite <- Q, !len_app. lia. }
  rewrite Q. exact R.
Qed.
Lemma outcome_bad : forall k rv crt kt s w er s', rv <> 0 \/ crt = [] -> outcome C A k rv crt kt s w er s' ->
  w = [] /\ s' = s /\ er = if rv =? 26 then EST_ERR_CA_ENROLL_RETRY else EST_ERR_CA_ENROLL_FAIL.
Proof.
  intros k rv crt kt s w er s' Hb H. unfold outcome in H.
  replace ((rv =? 0) && (0 <? len crt)) with false in H; auto.
  destruct Hb as [Hb| ->]; [|change (len (@nil Z)) with 0]; lia.
Qed.

(** ** The challenge *)
Notation challenges := (Spec.Server.challenges C).
Lemma challenge_replies : forall s w r, challenges -> one_line (c_realm C) -> (forall v, one_line (a_time A v)) ->
  mg_send_authorization_request C A s = (w, r) -> all_sent w ->
  exists s' hs, r = Ok (tt, s') /\ response (sent w) 401 hs [] /\ framed 401 hs [] /\ s_code s' = 401.
Proof.
  intros s w r Hm Lr Lt H AS. unfold mg_send_authorization_request, Spec.Server.challenges in *.
  apply mbind_inv in H as [[H _]|(e1 & [] & s1 & e2 & H1 & H & ->)]; [discriminate|]. inversion H1; subst. clear H1.
  assert (G : forall v s2, one_line v -> s_code s2 = 401 ->
    mbind (mg_write A (str "HTTP/1.1 401 Unauthorized" ++ EOL ++ hdr (str "Content-Length") (str "0")
                          ++ hdr (str "WWW-Authenticate") v ++ EOL)) (fun _ => ret tt) s2 = (e2, r) ->
    exists s' hs, r = Ok (tt, s') /\ response (sent ([] ++ e2)) 401 hs [] /\ framed 401 hs [] /\ s_code s' = 401).
  { intros v s2 Lv Cd Hw.
    match type of Hw with mbind (mg_write A ?d) _ ?s1 = _ => destruct (write_run d s1) as (ok & s3 & Q & _ & Cd2) end.
    apply mbind_inv in Hw as [[Hw _]|(e3 & ok' & s4 & e4 & H3 & Hw & ->)]; [rewrite Q in Hw; discriminate|].
    rewrite Q in H3. injection H3 as <- <- <-. inversion Hw; subst. exists s3, [(str "Content-Length", str "0"); (str "WWW-Authenticate", v)].
    split; [reflexivity|]. cbn [Datatypes.app sent]. rewrite app_nil_r. split; [|split; [|congruence]].
    - match goal with |- response ?d _ ?hs _ =>
        replace d with (str "HTTP/1.1 " ++ str "401" ++ str " " ++ str "Unauthorized" ++ CRLF ++ concat (map render_header hs) ++ CRLF ++ []) end.
      2: { unfold hdr, render_header, CRLF, EOL. cbn [map concat fst snd]. rewrite <- !app_assoc. reflexivity. }
      apply head_response; [|reflexivity|line|].
      + num.
      + constructor; [split; line|constructor; [split; line|constructor]].
    - left. exists (str "0"). split; [|num].
      exists [], (str "Content-Length"), [(str "WWW-Authenticate", v)]. repeat split. constructor. }
  destruct (c_auth_mode C); try contradiction.
  - eapply G; [| |exact H]; [|reflexivity]. repeat apply one_line_app; line.
  - apply mbind_inv in H as [[H _]|(e3 & v & s4 & e4 & H3 & H & ->)]; [discriminate|]. inversion H3; subst. clear H3.
    cbn [Datatypes.app]. eapply G; [| |exact H]; [|reflexivity]. repeat apply one_line_app; first [line|apply Lt].
  - eapply G; [| |exact H]; [|reflexivity]. repeat apply one_line_app; line.
Qed.
End P.
