(** What the upstream server's answer makes of a request of the proxy. *)
From Coq Require Import String ZArith List Bool Lia ZifyBool ZifyNat.
From Verif Require Import Base Spec.Http Spec.Client Spec.Multipart Spec.ClientCalls Model.CLib Model.EstErr Model.Codec Model.Uri Model.AuthHdr Model.HttpServer Model.ClientHttp Model.Multipart Model.Host Model.CsrAttrs Model.Client
  Proofs.EstErr Proofs.HttpRender Proofs.ClientHttp Proofs.ClientRender Proofs.ClientHeaders Proofs.MultipartResponse Proofs.ClientModes Proofs.ClientCalls Proofs.ClientShelf Proofs.RelayCourse.
Import ListNotations.
Open Scope Z_scope.

(** ** A retry has a delay *)
Lemma digits_nonneg : forall v, strisdigit_s v = true -> 0 <= strtoll v.
Proof.
  intros v H. unfold strisdigit_s in H. destruct v as [|x v]; [discriminate|]. set (w := x :: v) in *.
  assert (D : decimal w (fold_left (fun a c => 10 * a + (c - 48)) w 0)).
  { split; [discriminate|]. split; [|reflexivity]. apply Forall_forall. intros y I. rewrite forallb_forall in H. specialize (H y I). unfold isdigit in H. lia. }
  pose proof (decimal_nonneg _ _ D). destruct (Z_le_gt_dec (fold_left (fun a c => 10 * a + (c - 48)) w 0) LLONG_MAX) as [L|L].
  - now rewrite (strtoll_decimal _ _ D L).
  - rewrite (strtoll_big _ _ D) by lia. unfold LLONG_MAX. lia.
Qed.
Definition waits (rv : est_error) (c : cctx) : Prop := rv = EST_ERR_CA_ENROLL_RETRY -> 0 <= k_delay c.
Lemma waits_other : forall rv c, rv <> EST_ERR_CA_ENROLL_RETRY -> waits rv c.
Proof. intros rv c N E. contradiction. Qed.
Lemma retry_waits : forall m hs rv c rv' c', waits rv c -> retry_loop m hs rv c = Ok (rv', c') -> waits rv' c'.
Proof.
  induction hs as [|[n v] hs IH]; intros rv c rv' c' W H; cbn [retry_loop] in H; [injection H as <- <-; exact W|].
  destruct (cstr_at m n) as [name|]; [|discriminate]. cbn [bind] in H. destruct (casecmp_upper name _); [|eapply IH; eauto].
  destruct (cstr_at m v) as [value|]; [|discriminate]. cbn [bind] in H. destruct (isalpha _); [eapply IH; eauto|]. destruct (strisdigit_s value) eqn:D; [|eapply IH; eauto].
  destruct (strtoll value <=? INT_MAX); [|eapply IH; eauto]. eapply IH; [|exact H]. intros _. cbn [k_delay set_delay]. now apply digits_nonneg.
Qed.
Lemma status_waits : forall m hs st c rv c', status_result m hs st c = Ok (rv, c') -> waits rv c'.
Proof.
  intros m hs st c rv c' H. unfold status_result in H.
  repeat match type of H with
  | (if ?b then est_io_parse_http_retry_after_resp _ _ _ else _) = _ => destruct b; [unfold est_io_parse_http_retry_after_resp in H; eapply retry_waits; [|exact H]; apply waits_other; discriminate|]
  | (if ?b then Ok (?e, c) else _) = _ => destruct b; [injection H as <- <-; apply waits_other; discriminate|]
  | (if ?b then match k_mode c with _ => _ end else _) = _ => destruct b
  end; [|injection H as <- <-; apply waits_other; discriminate].
  destruct (k_mode c); try (injection H as <- <-; apply waits_other; discriminate); destruct (est_io_parse_http_auth_request m hs c); cbn [bind] in H; try discriminate; injection H as <- <-; apply waits_other; discriminate.
Qed.
Lemma body_errors : forall m1 hs n cur op rv d, response_body m1 hs n cur op = Ok (rv, d) -> rv = EST_ERR_NONE \/ rv = EST_ERR_HTTP_UNSUPPORTED.
Proof.
  intros * H. unfold response_body in H. destruct (est_io_check_http_hdrs m1 hs op) as [[r cl]|] eqn:Ck; [|discriminate]. cbn [bind] in H.
  destruct (err_eqb r EST_ERR_NONE).
  - cbv zeta in H. repeat match type of H with (if ?b then _ else _) = _ => destruct b end; try discriminate; injection H as <- <-; auto.
  - injection H as <- <-. unfold est_io_check_http_hdrs in Ck. destruct (check_loop _ _ _ _ _) as [[[[|] [y|]]|]|]; try discriminate; cbn [bind] in Ck; injection Ck as <- _; auto.
Qed.
Lemma read_errors : forall evs rv raw, est_io_read_raw evs [] = (rv, raw) -> rv <> EST_ERR_CA_ENROLL_RETRY.
Proof. intros evs rv raw R. destruct (read_raw_result evs [] rv raw ltac:(reflexivity) R) as (Er & _). intros ->. repeat destruct Er as [Er|Er]; discriminate || destruct Er. Qed.
Lemma response_waits : forall evs op c rv d c', est_io_get_response evs op c = Ok (rv, d, c') -> waits rv c'.
Proof.
  intros evs op c rv d c' H. unfold est_io_get_response in H. destruct (est_io_read_raw evs []) as [rv0 raw] eqn:R. apply read_errors in R.
  destruct (negb (err_eqb rv0 EST_ERR_NONE)); [injection H as <- _ <-; now apply waits_other|]. destruct (len raw <=? 0); [injection H as <- _ <-; now apply waits_other|].
  generalize dependent (raw ++ repeat 0 (Z.to_nat (EST_CA_MAX - len raw))). intros m H.
  destruct (parse_response_headers _) as [[[m1 cur] hs]|]; [|discriminate]. cbn [bind] in H. destruct (status_result _ _ _ _) as [[rv1 c1]|] eqn:St; [|discriminate]. cbn [bind] in H. apply status_waits in St.
  destruct (err_eqb rv1 EST_ERR_NONE); [|injection H as <- _ <-; exact St]. destruct (status_only op); [injection H as <- _ <-; now apply waits_other|].
  destruct (response_body _ _ _ _ _) as [[rv2 d2]|] eqn:B; [|discriminate]. cbn [bind] in H. injection H as <- _ <-. apply body_errors in B as [->| ->]; now apply waits_other.
Qed.
Lemma payload_errors : forall junk m1 cur b rv d, keygen_payload junk m1 cur b = Ok (rv, d) -> rv <> EST_ERR_CA_ENROLL_RETRY.
Proof.
  intros * Kp. unfold keygen_payload in Kp. destruct b as [b|]; [|injection Kp as <- <-; discriminate].
  destruct (cstr_at _ b) as [bd|]; [|discriminate]. cbn [bind] in Kp. destruct (cstr_at _ _) as [w|]; [|discriminate]. cbn [bind] in Kp. destruct (find_sub bd w); [|discriminate].
  destruct (parse_remaining_multipart_payload _ _ _ _) as [[[rv0 key] cert]|] eqn:Pm; [|discriminate]. cbn [bind] in Kp.
  assert (Hrv : rv0 <> EST_ERR_CA_ENROLL_RETRY).
  { unfold parse_remaining_multipart_payload in Pm. destruct (_ <=? _); [discriminate|]. destruct (cstr_at _ _); [|discriminate]. cbn [bind] in Pm. destruct (execute_loop _ _ _ _ _ _ _ _) as [[pz pp]|]; [|discriminate].
    cbn [bind] in Pm. injection Pm as <- _ _. destruct (both_populated pp); [discriminate|]. destruct (_ <? _); discriminate. }
  destruct (negb (err_eqb rv0 EST_ERR_NONE)); [injection Kp as <- <-; exact Hrv|]. destruct (_ || _); injection Kp as <- <-; discriminate.
Qed.
Lemma keygen_waits : forall junk evs c rv d c', est_io_get_keygen_response junk evs c = Ok (rv, d, c') -> waits rv c'.
Proof.
  intros junk evs c rv d c' H. unfold est_io_get_keygen_response in H. destruct (est_io_read_raw evs []) as [rv0 raw] eqn:R. apply read_errors in R.
  destruct (negb (err_eqb rv0 EST_ERR_NONE)); [injection H as <- _ <-; now apply waits_other|]. destruct (len raw <=? 0); [injection H as <- _ <-; now apply waits_other|].
  generalize dependent (raw ++ repeat 0 (Z.to_nat (EST_CA_MAX - len raw))). intros m H.
  destruct (parse_and_split_keygen_rsp _) as [[[[[m1 cur] hs] b]|]|]; [|injection H as <- _ <-; now apply waits_other|discriminate]. cbn [bind] in H.
  destruct (status_result _ _ _ _) as [[rv1 c1]|] eqn:St; [|discriminate]. cbn [bind] in H. apply status_waits in St.
  destruct (err_eqb rv1 EST_ERR_NONE); [|injection H as <- _ <-; exact St].
  destruct (keygen_payload _ _ _ _) as [[rv2 d2]|] eqn:B; [|discriminate]. cbn [bind] in H. injection H as <- _ <-. apply payload_errors in B. now apply waits_other.
Qed.

(** ** What the client makes of an answer before it looks at the body *)
Definition told (X : ext) (op : operation) (reads : list net) (k : cctx) (rv : est_error) (k' : cctx) : Prop :=
  if is_keygen op then exists d, est_io_get_keygen_response (x_junk X) reads k = Ok (rv, d, k') else exists d, est_io_get_response reads op k = Ok (rv, d, k').
Lemma told_waits : forall X op reads k rv k', told X op reads k rv k' -> waits rv k'.
Proof. intros X op reads k rv k' H. unfold told in H. destruct (is_keygen op); destruct H as [d H]; [eapply keygen_waits|eapply response_waits]; exact H. Qed.
Lemma answer_told : forall X op reads k e key cert k', answer X op reads k = Ok (e, key, cert, k') -> told X op reads k e k' \/ (told X op reads k EST_ERR_NONE k' /\ e <> EST_ERR_NONE /\ e <> EST_ERR_CA_ENROLL_RETRY).
Proof.
  intros X op reads k e key cert k' H. unfold answer in H. unfold told.
  assert (Ck : forall key cert b, checked_cert key cert b <> EST_ERR_CA_ENROLL_RETRY).
  { clear. intros key cert b. unfold checked_cert. repeat match goal with |- context [if ?b then _ else _] => destruct b end; discriminate. }
  destruct (is_keygen op).
  - destruct (est_io_get_keygen_response _ _ _) as [[[rv d] k1]|]; [|discriminate]. cbn [bind] in H. injection H as H. apply judged_cases in H as (-> & H).
    destruct H as [(-> & -> & _)|(Ne & _ & _ & [->|(-> & ->)])]; [left; eauto|left; eauto|right]. split; [eauto|]. split; [exact Ne|apply Ck].
  - destruct (est_io_get_response _ _ _) as [[[rv d] k1]|]; [|discriminate]. cbn [bind] in H. injection H as H. apply judged_cases in H as (-> & H).
    destruct H as [(-> & -> & _)|(Ne & _ & _ & [->|(-> & ->)])]; [left; eauto|left; eauto|right]. split; [eauto|]. split; [exact Ne|apply Ck].
Qed.
Lemma answer_waits : forall X op reads k e key cert k', answer X op reads k = Ok (e, key, cert, k') -> waits e k'.
Proof. intros * H. apply answer_told in H as [H|(_ & _ & H)]; [eapply told_waits; exact H|now apply waits_other]. Qed.

(** A contact that fails before a body is looked at. *)
Inductive fails (X : ext) (op : operation) (c : client) (w : list attempt) : list event -> est_error -> cctx -> Prop :=
| f_unreached : fails X op c w [conn c] (why_unreached w) (c_http c)
| f_unsent : forall t, reaches X c w t -> fails X op c w [conn c] EST_ERR_HTTP_CANNOT_BUILD_HEADER (c_http c)
| f_unwritten : forall t q k, reaches X c w t -> t_write t = false -> fails X op c w [conn c; ERequest q] EST_ERR_SSL_WRITE k
| f_told : forall t q k rv k', reaches X c w t -> t_write t = true -> told X op (t_reads t) k rv k' -> rv <> EST_ERR_NONE ->
    fails X op c w [conn c; ERequest q; EResponse (t_reads t)] rv k'.
Lemma why_not_retry : forall w, why_unreached w <> EST_ERR_CA_ENROLL_RETRY /\ why_unreached w <> EST_ERR_NONE.
Proof. intros [|[[]|] w]; split; discriminate. Qed.
Lemma fails_error : forall X op c w evs rv k, fails X op c w evs rv k -> rv <> EST_ERR_NONE /\ waits rv k.
Proof.
  intros * F. inversion F; subst; try (split; [discriminate|apply waits_other; discriminate]).
  - destruct (why_not_retry w). split; [assumption|now apply waits_other].
  - split; [assumption|eapply told_waits; eassumption].
Qed.
(** The answer is a 200 one, and its headers and length are accepted. *)
Definition served (X : ext) (op : operation) (c : client) (w : list attempt) (evs : list event) : Prop :=
  exists t q k k', reaches X c w t /\ evs = [conn c; ERequest q; EResponse (t_reads t)] /\ told X op (t_reads t) k EST_ERR_NONE k'.
Lemma contact_fails : forall X op body c w evs e key cert c1, contact X op body c w evs (Ok (e, key, cert, c1)) ->
  fails X op c w evs e (c_http c1) \/ served X op c w evs.
Proof.
  intros * T. inversion T as [| He| |t h R B L He|t q R B W He|t q R B W Q He|t q e0 k0 x0 k R B W Q He]; subst.
  - left. constructor.
  - left. eapply f_unsent; eauto.
  - left. eapply f_unwritten; eauto.
  - cbn [c_http put_http]. destruct (answer_told _ _ _ _ _ _ _ _ Q) as [Q1|[Q1 _]].
    + destruct (err_eqb e EST_ERR_NONE) eqn:En; [apply err_eqb_eq in En; subst e; right; unfold served; eauto 10|]. left. apply eqb_none in En. eapply f_told; eauto.
    + right. unfold served; eauto 10.
Qed.
Lemma course_waits : forall X g op body c w evs e key cert c1 w', course X g op body c w evs (Ok (e, key, cert, c1)) w' -> waits e (c_http c1).
Proof.
  assert (G : forall X op body c w evs e key cert c1, contact X op body c w evs (Ok (e, key, cert, c1)) -> waits e (c_http c1)).
  { intros * T. inversion T as [| He| |t h R B L He|t q R B W He|t q R B W Q He|t q e0 k0 x0 k R B W Q He]; subst; try (apply waits_other; discriminate).
    - apply waits_other, why_not_retry.
    - eapply answer_waits; exact Q. }
  intros * T. inversion T as [| evs1 e1 k1 x1 c2 T1 N He|evs1 c2 sc q reads1 evs2 r1 Hg T1 Eq As M1 M2 T2 F He]; subst; eapply G; eassumption.
Qed.
(** The last contact. *)
Lemma course_last : forall X g op body c w evs e key cert c1 w', course X g op body c w evs (Ok (e, key, cert, c1)) w' ->
  exists pre c' w1 evs', evs = pre ++ evs' /\ w1 = skipn (connects pre) w /\ (fails X op c' w1 evs' e (c_http c1) \/ served X op c' w1 evs').
Proof.
  intros * T. inversion T as [| evs1 e1 k1 x1 c2 T1 N He|evs1 c2 sc q reads1 evs2 r1 Hg T1 Eq As M1 M2 T2 F He]; subst.
  - exists [], c, w, evs. repeat split; auto. eapply contact_fails; exact T1.
  - exists [conn c; ERequest q; EResponse reads1], c2, (tl w), evs2. split; [reflexivity|]. split; [destruct w; reflexivity|]. eapply contact_fails; exact T2.
Qed.

(** ** The operations that fetch *)
Definition fetch (X : ext) (op : operation) (c : client) (w : list attempt) (evs : list event) (rv : est_error) (c1 : client) : Prop :=
  fails X op c w evs rv (c_http c1) \/ served X op c w evs.
Lemma cacerts_fetch : forall X c w evs r, est_client_get_cacerts X true {| s_c := c; s_env := w |} = (evs, r) ->
  (evs = [] /\ exists e, e <> EST_ERR_NONE /\ e <> EST_ERR_CA_ENROLL_RETRY /\ r = Ok (e, {| s_c := c; s_env := w |}))
  \/ (r = UB /\ (evs = [conn c] \/ exists q t, evs = [conn c; ERequest q; EResponse t]))
  \/ exists rv c1, r = Ok (rv, {| s_c := c1; s_env := tl w |}) /\ fetch X OP_CACERTS c w evs rv c1.
Proof.
  intros X c w evs r H. unfold est_client_get_cacerts in H. unfold mbind at 1, get in H. cbn [s_c] in H.
  destruct (c_init c) eqn:Ci; cbn [negb] in H; [|cbn in H; injection H as <- <-; left; split; [reflexivity|]; eexists; split; [|split]; [| |reflexivity]; discriminate].
  unfold mbind at 1 in H. destruct (connect_run X c w) as (r1 & Er & Hr). pose proof (connect_why X c w) as Y. rewrite Er in *. cbn [snd] in Y.
  destruct r1 as [[[e1|t] s1]|]; [| |injection H as <- <-; right; left; auto].
  { destruct Hr as [_ ->]. rewrite (Y e1 _ eq_refl) in *. cbn in H. injection H as <- <-. right. right. exists (why_unreached w), c. split; [reflexivity|]. left. constructor. }
  destruct Hr as [Re ->]. unfold est_client_send_cacerts_request in H. unfold mbind at 1, get in H. cbn [s_c] in H. cbv zeta in H.
  destruct (len (est_client_build_cacerts_header c) =? 0).
  { cbn in H. injection H as <- <-. right. right. eexists _, c. split; [reflexivity|]. left. eapply f_unsent; eauto. }
  set (q := _ ++ CRLF ++ CRLF) in H. clearbody q. unfold exchange, get_response in H. run_in H.
  destruct (t_write t) eqn:W; cbn [negb] in H; run_in H.
  2: { injection H as <- <-. right. right. eexists _, _. split; [reflexivity|]. left. eapply f_unwritten; eauto. }
  destruct (est_io_get_response _ _ _) as [[[rv d] k]|] eqn:G; run_in H; [|injection H as <- <-; right; left; split; [reflexivity|]; right; eexists q, _; reflexivity].
  assert (Tl : told X OP_CACERTS (t_reads t) (set_status 0 (c_http c)) rv k) by (exists d; exact G).
  destruct (err_eqb rv EST_ERR_NONE) eqn:En; cbn [negb] in H; run_in H.
  2: { injection H as <- <-. right. right. eexists rv, _. split; [reflexivity|]. left. cbn [c_http put_http]. eapply f_told; eauto. now apply eqb_none. }
  apply err_eqb_eq in En. subst rv.
  assert (Sv : served X OP_CACERTS c w [conn c; ERequest q; EResponse (t_reads t)]) by (unfold served; eauto 10).
  destruct (len (delivered_bytes d) =? 0) eqn:L0; run_in H; [injection H as <- <-; right; right; eexists _, _; split; [reflexivity|]; now right|].
  destruct (EST_CA_MAX <? len (delivered_bytes d) + 1) eqn:L1; run_in H; [injection H as <- <-; right; right; eexists _, _; split; [reflexivity|]; now right|].
  destruct (verify_cacert_resp X (delivered_bytes d)) as [e2 text] eqn:V. destruct (err_eqb e2 EST_ERR_NONE) eqn:E2; run_in H; (injection H as <- <-; right; right; eexists _, _; split; [reflexivity|]; now right).
Qed.
Lemma csrattrs_fetch : forall X c w evs r, est_client_get_csrattrs X true {| s_c := c; s_env := w |} = (evs, r) ->
  (r = UB /\ (evs = [conn c] \/ exists q t, evs = [conn c; ERequest q; EResponse t]))
  \/ exists rv d c1, r = Ok (rv, d, {| s_c := c1; s_env := tl w |})
       /\ ((fails X OP_CSRATTRS c w evs rv (c_http c1) /\ d = None)
           \/ (served X OP_CSRATTRS c w evs
               /\ ((exists q t b, evs = [conn c; ERequest q; EResponse t] /\ rv = EST_ERR_NONE /\ d = Some b /\ b <> [] /\ reply_body OP_CSRATTRS t b)
                   \/ (d = None)))).
Proof.
  intros X c w evs r H. unfold est_client_get_csrattrs in H. cbn [negb] in H.
  unfold mbind at 1 in H. destruct (connect_run X c w) as (r1 & Er & Hr). pose proof (connect_why X c w) as Y. rewrite Er in *. cbn [snd] in Y.
  destruct r1 as [[[e1|t] s1]|]; [| |injection H as <- <-; left; auto].
  { destruct Hr as [_ ->]. rewrite (Y e1 _ eq_refl) in *. cbn in H. injection H as <- <-. right. exists (why_unreached w), None, c. split; [reflexivity|]. left. split; [constructor|reflexivity]. }
  destruct Hr as [Re ->]. unfold est_client_send_csrattrs_request in H. run_in H.
  change (est_client_build_csr_header X (put_attrs None c) t) with (est_client_build_csr_header X c t) in H.
  destruct (est_client_build_csr_header X c t) as [h|]; run_in H; [|injection H as <- <-; left; auto].
  destruct (len h =? 0); run_in H.
  { injection H as <- <-. right. eexists _, None, _. split; [reflexivity|]. left. split; [|reflexivity]. cbn [c_http put_attrs]. eapply f_unsent; eauto. }
  set (q := _ ++ CRLF ++ CRLF) in H. clearbody q. unfold exchange, get_response in H. run_in H.
  destruct (t_write t) eqn:W; cbn [negb] in H; run_in H.
  2: { injection H as <- <-. right. eexists _, None, _. split; [reflexivity|]. left. split; [|reflexivity]. eapply f_unwritten; eauto. }
  destruct (est_io_get_response _ _ _) as [[[rv d] k]|] eqn:G; run_in H; [|injection H as <- <-; left; split; [reflexivity|]; right; eexists q, _; reflexivity].
  assert (Tl : exists k0, told X OP_CSRATTRS (t_reads t) k0 rv k) by (eexists; exists d; exact G). destruct Tl as [k0 Tl].
  destruct (err_eqb rv EST_ERR_NONE) eqn:En; cbn [negb] in H; run_in H.
  2: { rewrite En in H. cbn [negb] in H. run_in H. injection H as <- <-. right. eexists rv, None, _. split; [reflexivity|]. left. split; [|reflexivity]. cbn [c_http put_http]. eapply f_told; eauto. now apply eqb_none. }
  apply err_eqb_eq in En. subst rv. change (negb (err_eqb EST_ERR_NONE EST_ERR_NONE)) with false in H. cbv iota in H.
  assert (Sv : served X OP_CSRATTRS c w [conn c; ERequest q; EResponse (t_reads t)]) by (unfold served; eauto 10).
  destruct (match d with Deliver b _ => b | Untouched => None end) as [b|] eqn:Ed; run_in H.
  2: { injection H as <- <-. right. eexists _, None, _. split; [reflexivity|]. right. auto. }
  destruct (est_asn1_parse_attributes _ _ _) as [[e pop]|]; run_in H; [|injection H as <- <-; left; split; [reflexivity|]; right; eexists q, _; reflexivity].
  destruct (err_eqb e EST_ERR_NONE); run_in H; injection H as <- <-; right; eexists _, _, _; (split; [reflexivity|]; right; split; [exact Sv|]); [left|now right].
  exists q, (t_reads t), b. split; [reflexivity|]. split; [reflexivity|]. split; [reflexivity|].
  assert (Bd : delivered_bytes d = b) by (destruct d as [|[y|] z]; try discriminate; cbn in Ed |- *; congruence).
  assert (Nb : b <> []).
  { destruct d as [|x z]; [discriminate|]. subst x. apply delivered_sound in G as (_ & Gl & Gn & _). intros ->. change (len (@nil Z)) with 0 in Gl. lia. }
  split; [exact Nb|]. rewrite <- Bd. eapply delivered_spec; [exact G|]. rewrite Bd. exact Nb.
Qed.
