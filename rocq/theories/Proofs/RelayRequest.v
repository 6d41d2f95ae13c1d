(** The proxy's handling of an enrollment. *)
From Coq Require Import String ZArith List Bool Lia ZifyBool ZifyNat.
From Verif Require Import Base Spec.Http Spec.Server Spec.Relay Model.CLib Model.EstErr Model.Codec Model.Uri Model.AuthHdr Model.HttpServer Model.ClientHttp Model.Server Model.Relay
  Proofs.EstErr Proofs.Uri Proofs.ServerAuth Proofs.ServerEnroll Proofs.ServerReply Proofs.ServerProps Proofs.ServerClaims.
From Verif Require Model.Client Proofs.RelayCourse.
Import ListNotations.
Open Scope Z_scope.

Section P.
Context {cert csr key E : Type}.
Variable O : @ossl cert csr key.
Variable C : @config cert.
Variable A : @app cert key E.
Variable X : Client.ext.
Variable own_path : option bytes.
Variable have_ctx : bool.
Variable n : nat.
Notation fuel := (S (S n)).
Notation pevent := (@pevent cert key).
Notation event := (@event cert key).
Notation pst := (@pst E).
Implicit Types (s : pst) (e : list pevent).

(** ** Sequencing *)
Lemma pbind_inv : forall T U (m : @P cert key E T) (f : T -> P U) s e r, pbind m f s = (e, r) ->
  (m s = (e, UB) /\ r = UB) \/ exists e1 x s1 e2, m s = (e1, Ok (x, s1)) /\ f x s1 = (e2, r) /\ e = e1 ++ e2.
Proof.
  intros T U m f s e r H. unfold pbind in H. destruct (m s) as [e1 [[x s1]|]].
  - destruct (f x s1) as [e2 r2] eqn:F. injection H as <- <-. right. eauto 8.
  - injection H as <- <-. auto.
Qed.
Lemma dn_inv : forall T (m : @M cert key E T) s e r, dn m s = (e, r) ->
  exists d r0, m (p_dn s) = (d, r0) /\ e = map Dn d
    /\ ((r0 = UB /\ r = UB) \/ exists x u, r0 = Ok (x, u) /\ r = Ok (x, {| p_dn := u; p_up := p_up s; p_delay := p_delay s |})).
Proof.
  intros T m s e r H. unfold dn in H. destruct (m (p_dn s)) as [d [[x u]|]]; injection H as <- <-; eexists d, _; (split; [reflexivity|]; split; [reflexivity|]); [right|left]; eauto.
Qed.
Lemma plift_inv : forall T (q : res T) s e r, @plift cert key E T q s = (e, r) -> e = [] /\ ((q = UB /\ r = UB) \/ exists x, q = Ok x /\ r = Ok (x, s)).
Proof. intros T q s e r H. unfold plift in H. destruct q; injection H as <- <-; split; eauto. Qed.
Lemma pret_inv : forall T (x : T) s e r, @pret cert key E T x s = (e, r) -> e = [] /\ r = Ok (x, s).
Proof. intros. unfold pret in *. injection H as <- <-. auto. Qed.

Lemma ups_app : forall e f, ups (e ++ f) = ups e ++ ups f.
Proof. induction e as [|[x|x] e IH]; intro f; cbn [ups Datatypes.app]; auto. now rewrite IH. Qed.
Lemma downs_app : forall e f, downs (e ++ f) = downs e ++ downs f.
Proof. induction e as [|[x|x] e IH]; intro f; cbn [downs Datatypes.app]; auto. now rewrite IH. Qed.
Lemma ups_dn : forall d : list event, ups (map Dn d) = [].
Proof. induction d; auto. Qed.
Lemma downs_dn : forall d : list event, downs (map Dn d) = d.
Proof. induction d as [|x d IH]; cbn [map downs]; auto. now rewrite IH. Qed.
Lemma ups_up : forall u, ups (map (@Up cert key) u) = u.
Proof. induction u as [|x u IH]; cbn [map ups]; auto. now rewrite IH. Qed.
Lemma downs_up : forall u, downs (map (@Up cert key) u) = [].
Proof. induction u; auto. Qed.

(** Only the connection to the client changes. *)
Definition same_up s s' : Prop := p_up s' = p_up s /\ p_delay s' = p_delay s.
Definition local_run {T} s e (r : res (T * pst)) : Prop :=
  ups e = [] /\ forall x s', r = Ok (x, s') -> same_up s s'.
Lemma same_refl : forall s, same_up s s.
Proof. split; reflexivity. Qed.
Lemma same_trans : forall s s1 s2, same_up s s1 -> same_up s1 s2 -> same_up s s2.
Proof. unfold same_up. intros s s1 s2 [] []. split; congruence. Qed.
Lemma local_dn : forall T (m : @M cert key E T) s e r, dn m s = (e, r) -> local_run s e r.
Proof.
  intros T m s e r H. apply dn_inv in H as (d & r0 & _ & -> & H). split; [apply ups_dn|]. intros x s' ->. destruct H as [[_ H]|(y & u & _ & H)]; [discriminate|].
  injection H as _ ->. split; reflexivity.
Qed.
Lemma local_pret : forall T (x : T) s e r, pret x s = (e, r) -> local_run s e r.
Proof. intros T x s e r H. apply pret_inv in H as [-> ->]. split; [reflexivity|]. intros y s' Q. injection Q as _ <-. apply same_refl. Qed.
Lemma local_bind : forall T U (m : P T) (f : T -> P U) s e r, pbind m f s = (e, r) ->
  (forall e r, m s = (e, r) -> local_run s e r) -> (forall x s1 e r, f x s1 = (e, r) -> local_run s1 e r) -> local_run s e r.
Proof.
  intros T U m f s e r H Hm Hf. apply pbind_inv in H as [[H ->]|(e1 & x & s1 & e2 & H1 & H2 & ->)].
  - split; [apply (Hm _ _ H)|discriminate].
  - destruct (Hm _ _ H1) as [U1 S1]. destruct (Hf _ _ _ _ H2) as [U2 S2]. split; [now rewrite ups_app, U1, U2|]. intros y s' ->. eapply same_trans; eauto.
Qed.

(** ** The proxy's own checks *)
Definition checked (t : @tls cert) (authz : option bytes) (ct body : bytes) (path : option bytes) (k : enroll_kind) (d : list event) : Prop :=
  (is_http C = true -> ct_is ct (str "application/pkcs10") = true) /\ authed t path d /\ ~ cert_rejected t
  /\ exists r, o_parse_csr O body = Some r /\ good_csr O r /\ est_tls_uid_auth O C t r = Ok EST_ERR_NONE.

Lemma granted_quiet : forall t authz path k body sd d au ro u, auth_path O C A t authz path k body sd d (Ok (au, ro, u)) -> granted au -> sent d = [] /\ all_sent d.
Proof.
  intros * H G.
  assert (Q : forall kk pr rv, sent (@res_ev cert key C kk pr rv) = [] /\ all_sent (@res_ev cert key C kk pr rv)).
  { intros. unfold res_ev. destruct (c_ev_auth C); [split; [reflexivity|]; intros ? ? [?|[]]; discriminate|split; [reflexivity|]; intros ? ? []]. }
  assert (Q1 : forall a p pa ok kk pr rv, sent (EvHttpAuth a p pa ok :: @res_ev cert key C kk pr rv) = [] /\ all_sent (EvHttpAuth a p pa ok :: @res_ev cert key C kk pr rv)).
  { intros. destruct (Q kk pr rv) as [Q1 Q2]. split; [exact Q1|]. intros ? ? [?|?]; [discriminate|eauto]. }
  inversion H; subst; try apply Q; try apply Q1. destruct G as [G|[G|G]]; discriminate.
Qed.
Lemma own_checks_pass : forall t authz ct body path k s e s', own_checks O C A t authz ct body path k s = (e, Ok (EST_ERR_NONE, s')) ->
  exists d, e = map Dn d /\ same_up s s' /\ checked t authz ct body path k d /\ sent d = [] /\ all_sent d.
Proof.
  intros * H. unfold own_checks in H. destruct (is_http C && negb (ct_is ct (str "application/pkcs10"))) eqn:B; [apply pret_inv in H as [_ H]; discriminate|].
  assert (B' : is_http C = true -> ct_is ct (str "application/pkcs10") = true) by (intro; destruct (ct_is ct _); [reflexivity|]; rewrite andb_false_iff in B; cbn in B; destruct B; congruence). clear B.
  apply pbind_inv in H as [[_ H]|(e1 & [au r0] & s1 & e2 & H1 & H & ->)]; [discriminate|].
  pose proof (local_dn _ _ _ _ _ H1) as [_ S1]. specialize (S1 _ _ eq_refl). apply dn_inv in H1 as (d & q & H1 & -> & [[-> H1']|(y & u & -> & H1')]); [discriminate|]. injection H1' as <- ->.
  apply enroll_auth_paths in H1. exists d.
  assert (F : granted au -> match (match r0 with Some r => Some r | None => o_parse_csr O body end) with
      | None => pret EST_ERR_BAD_PKCS10
      | Some r => if negb (est_server_check_csr O r) then pret EST_ERR_BAD_PKCS10
        else pbind (plift (est_tls_uid_auth O C t r)) (fun er => pret (if err_eqb er EST_ERR_NONE then EST_ERR_NONE else EST_ERR_AUTH_FAIL_TLSUID)) end {| p_dn := u; p_up := p_up s; p_delay := p_delay s |}
      = (e2, Ok (EST_ERR_NONE, s')) -> map Dn d ++ e2 = map Dn d /\ same_up s s' /\ checked t authz ct body path k d /\ sent d = [] /\ all_sent d).
  { intros G K. destruct (auth_granted _ _ _ _ _ _ _ _ _ _ _ _ _ H1 G) as [Au Nr].
    assert (Pr : forall r, match r0 with Some r => Some r | None => o_parse_csr O body end = Some r -> o_parse_csr O body = Some r).
    { intros r Q. destruct r0 as [r1|]; [|exact Q]. injection Q as <-. eapply auth_csr; exact H1. }
    destruct (match r0 with Some r => Some r | None => o_parse_csr O body end) as [r|]; [|apply pret_inv in K as [_ K]; discriminate]. specialize (Pr r eq_refl).
    destruct (est_server_check_csr O r) eqn:Ck; cbn [negb] in K; [|apply pret_inv in K as [_ K]; discriminate].
    apply pbind_inv in K as [[_ K]|(e3 & er & s3 & e4 & K1 & K & ->)]; [discriminate|]. apply plift_inv in K1 as [-> [[_ K1]|(er' & K0 & K1)]]; [discriminate|]. injection K1 as -> ->.
    apply pret_inv in K as [-> K]. injection K as K ->. rewrite app_nil_r.
    split; [reflexivity|]. split; [exact S1|]. split; [|eapply granted_quiet; eauto].
    split; [exact B'|]. split; [exact Au|]. split; [exact Nr|]. exists r. split; [exact Pr|]. split; [now apply good_csr_iff|]. rewrite K0. destruct (err_eqb er' EST_ERR_NONE) eqn:Ee; [|discriminate].
    apply err_eqb_eq in Ee. now subst. }
  destruct au; try (apply pret_inv in H as [_ H]; discriminate); apply F; unfold granted; auto.
Qed.
Lemma own_checks_local : forall t authz ct body path k s e r, own_checks O C A t authz ct body path k s = (e, r) -> local_run s e r.
Proof.
  intros * H. unfold own_checks in H. destruct (is_http C && _); [eapply local_pret; exact H|]. eapply local_bind; [exact H|intros ? ? H2; eapply local_dn; exact H2|].
  intros [au r0] s1 e1 r1 H1.
  assert (F : match (match r0 with Some r => Some r | None => o_parse_csr O body end) with
      | None => pret EST_ERR_BAD_PKCS10
      | Some r => if negb (est_server_check_csr O r) then pret EST_ERR_BAD_PKCS10
        else pbind (plift (est_tls_uid_auth O C t r)) (fun er => pret (if err_eqb er EST_ERR_NONE then EST_ERR_NONE else EST_ERR_AUTH_FAIL_TLSUID)) end s1 = (e1, r1) -> local_run s1 e1 r1).
  { destruct (match r0 with Some r => Some r | None => o_parse_csr O body end) as [q|]; [|apply local_pret]. destruct (negb _); [apply local_pret|]. intro K.
    eapply local_bind; [exact K| |intros ? ? ? ? H2; eapply local_pret; exact H2]. intros e2 r2 H2. apply plift_inv in H2 as [-> [[_ ->]|(x & _ & ->)]]; (split; [reflexivity|]; intros y s' Q); [discriminate|]. injection Q as _ <-. apply same_refl. }
  destruct au; first [exact (F H1)|eapply local_pret; exact H1].
Qed.

(** ** The path segment *)
Lemma store_cut : forall p m, 0 <= m <= len p -> est_store_path_segment p m = Ok (EST_ERR_NONE, firstn (Z.to_nat m) p ++ [0]).
Proof.
  intros p m Hm. unfold est_store_path_segment. replace (Z.min (len p) m + 1 <? m + 1) with false by lia.
  assert (L : len (strncpy_img p (m + 1)) = m + 1) by (unfold strncpy_img; rewrite len_firstn, len_app, len_repeat; lia).
  rewrite wr_ok by lia. cbn [bind]. do 2 f_equal. rewrite set_nth_split by (unfold len in L; lia).
  assert (F : firstn (Z.to_nat m) (strncpy_img p (m + 1)) = firstn (Z.to_nat m) p).
  { unfold strncpy_img. rewrite firstn_firstn. replace (Nat.min _ _) with (Z.to_nat m) by lia. rewrite firstn_app. replace (Z.to_nat m - length p)%nat with 0%nat by (unfold len in Hm; lia).
    apply app_nil_r. }
  rewrite F. f_equal. f_equal. apply skipn_all2. unfold len in L. lia.
Qed.
(** The client context for a request with this segment. *)
Definition chosen (path : option bytes) (c c0 : Client.client) : Prop :=
  match segment path own_path with
  | Some p => exists q, c0 = Client.put_path (Some q) c /\ (no_nul p -> q = firstn 128 p)
  | None => c0 = c
  end.
Definition put_client s (c : Client.client) : pst :=
  {| p_dn := p_dn s; p_up := {| Client.s_c := c; Client.s_env := Client.s_env (p_up s) |}; p_delay := p_delay s |}.
Lemma choose_run : forall path s, exists c0, @choose_path cert key E own_path path s = ([], Ok (EST_ERR_NONE, put_client s c0)) /\ chosen path (Client.s_c (p_up s)) c0.
Proof.
  intros path s. unfold choose_path, chosen, segment. destruct (match path with Some p => Some p | None => own_path end) as [p|].
  - unfold set_path. unfold pbind at 1. rewrite store_cut by (pose proof (len_nonneg _ p); lia). cbn [plift]. unfold pbind at 1.
    destruct (cstr (firstn (Z.to_nat (Z.min (len p) 128)) p ++ [0])) as [q|] eqn:Q.
    + exists (Client.put_path (Some q) (Client.s_c (p_up s))). split; [reflexivity|]. exists q. split; [reflexivity|]. intro N.
      assert (F : firstn (Z.to_nat (Z.min (len p) 128)) p = firstn 128 p) by (unfold len; destruct (Nat.le_gt_cases (length p) 128); [rewrite !firstn_all2 by lia; reflexivity|f_equal; lia]).
      rewrite cstr_app_nul in Q by (rewrite F; intro I; apply N; rewrite <- (firstn_skipn 128 p); apply in_or_app; auto). injection Q as <-. exact F.
    + exfalso. assert (K : is_ok (cstr (firstn (Z.to_nat (Z.min (len p) 128)) p ++ [0]))) by (apply cstr_ok_iff, in_or_app; right; now left). rewrite Q in K. destruct K as [? K]. discriminate.
  - exists (Client.s_c (p_up s)). split; [|reflexivity]. unfold pret, put_client. destruct s as [a [b w] d]. reflexivity.
Qed.

(** ** Sending *)
Lemma write_all_ok : forall l sd, exists w er sd', write_all A l sd = (w, Ok (er, sd')).
Proof.
  induction l as [|d l IH]; intro sd; cbn [write_all]; [unfold ret; eauto|]. destruct (write_run A d sd) as (ok & s2 & Q & _ & _). unfold mbind. rewrite Q. destruct ok; cbn [negb]; [|unfold ret; eauto].
  destruct (IH s2) as (w & er & s3 & ->). eauto.
Qed.
Lemma send_200_ok : forall ct b sd, exists w er sd', send_200 A ct b sd = (w, Ok (er, sd')).
Proof.
  intros ct b sd. unfold send_200. destruct (write_run A (ok_head ct (Some (str "base64")) (len b)) sd) as (ok & s2 & Q & _ & _). unfold mbind at 1. rewrite Q. destruct ok; cbn [negb]; [|unfold ret; eauto].
  destruct (write_run A b s2) as (ok2 & s3 & Q2 & _ & _). unfold mbind. rewrite Q2. unfold ret. eauto.
Qed.
Definition passes_back (k : enroll_kind) (pk x : bytes) : M est_error :=
  if is_skg k then write_all A (keygen_pieces pk x) else send_200 A (str "application/pkcs7-mime; smime-type=certs-only") x.
Lemma passes_back_ok : forall k pk x sd, exists w er sd', passes_back k pk x sd = (w, Ok (er, sd')).
Proof. intros. unfold passes_back. destruct (is_skg k); [apply write_all_ok|apply send_200_ok]. Qed.

(** ** Enrollments *)
Lemma upstream_none : forall e : est_error, upstream_error e = EST_ERR_NONE <-> e = EST_ERR_NONE.
Proof. intro e. split; [destruct e; discriminate || reflexivity|intros ->; reflexivity]. Qed.
Lemma upstream_not_pending : forall e : est_error, upstream_error e <> EST_ERR_AUTH_PENDING.
Proof. intro e. destruct e; discriminate. Qed.
Lemma upstream_status : forall e : est_error, e <> EST_ERR_NONE -> http_status (upstream_error e) = reported e.
Proof. intros e N. destruct e; try contradiction; reflexivity. Qed.

Lemma contact_result : forall op body c w evs (e : est_error) k x c1, RelayCourse.contact X op body c w evs (Ok (e, k, x, c1)) ->
  (e = EST_ERR_NONE /\ exists b reads, evs = b ++ [Client.EResponse reads] /\ RelayCourse.yields X op reads k x) \/ (e <> EST_ERR_NONE /\ k = [] /\ x = []).
Proof.
  intros * T. inversion T; subst; try (right; repeat split; auto; discriminate).
  - right. repeat split; auto. destruct w as [|[[]|] w]; discriminate.
  - match goal with Q : RelayCourse.answer _ _ _ _ = _ |- _ => apply RelayCourse.answer_cert in Q as [[-> Y]|Q] end; [|now right].
    left. split; [reflexivity|]. eexists [_; _], _. split; [reflexivity|exact Y].
Qed.
Lemma course_result : forall g op body c w evs (e : est_error) k x c1 w', RelayCourse.course X g op body c w evs (Ok (e, k, x, c1)) w' ->
  (e = EST_ERR_NONE /\ exists b reads, evs = b ++ [Client.EResponse reads] /\ RelayCourse.yields X op reads k x) \/ (e <> EST_ERR_NONE /\ k = [] /\ x = []).
Proof.
  intros * T. inversion T as [| evs1 e1 k1 x1 c2 T1 N He|evs1 c2 sc q reads1 evs2 r1 Hg T1 Eq As M1 M2 T2 F He]; subst.
  - eapply contact_result; exact T1.
  - destruct (contact_result _ _ _ _ _ _ _ _ _ T2) as [(-> & b & reads & -> & Y)|R]; [|now right].
    left. split; [reflexivity|]. eexists (_ ++ b), reads. split; [rewrite <- app_assoc; reflexivity|exact Y].
Qed.

Definition settled s s' c1 w' : Prop := p_up s' = {| Client.s_c := RelayCourse.reset c1; Client.s_env := w' |} /\ p_delay s' = k_delay (Client.c_http c1).
Inductive passed (k : enroll_kind) s (out : res (est_error * bytes * bytes * Client.client)) w' : list event -> res (est_error * bytes * bytes * pst) -> Prop :=
| passed_ub : out = UB -> passed k s out w' [] UB
| passed_error : forall rv c1 s', out = Ok (rv, [], [], c1) -> rv <> EST_ERR_NONE -> settled s s' c1 w' -> passed k s out w' [] (Ok (upstream_error rv, [], [], s'))
| passed_coap : forall pk x c1 s', out = Ok (EST_ERR_NONE, pk, x, c1) -> is_http C = false -> settled s s' c1 w' -> passed k s out w' [] (Ok (EST_ERR_NONE, pk, x, s'))
| passed_http : forall pk x c1 s' sd dd rv2, out = Ok (EST_ERR_NONE, pk, x, c1) -> is_http C = true -> passes_back k pk x sd = (dd, Ok (rv2, p_dn s')) -> settled s s' c1 w' ->
    passed k s out w' dd (Ok (rv2, pk, x, s')).

Lemma enroll_run : forall t authz ct body path k s e r, est_proxy_handle_enroll O C A X own_path have_ctx fuel t authz ct body path k s = (e, r) ->
  (ups e = [] /\ (r = UB \/ exists rc s', r = Ok (rc, [], [], s') /\ rc <> EST_ERR_NONE /\ p_delay s' = p_delay s))
  \/ exists d evs dd c0 out w', e = map Dn d ++ map Up evs ++ map Dn dd /\ have_ctx = true /\ checked t authz ct body path k d /\ sent d = [] /\ all_sent d
     /\ chosen path (Client.s_c (p_up s)) c0
     /\ RelayCourse.course X (gives_credentials C) (op_of k) body c0 (Client.s_env (p_up s)) evs out w' /\ passed k s out w' dd r.
Proof.
  intros * H. unfold est_proxy_handle_enroll in H.
  apply pbind_inv in H as [[H ->]|(e1 & rc & s1 & e2 & H1 & H & ->)]; [left; split; [eapply own_checks_local in H; apply H|auto]|].
  pose proof (own_checks_local _ _ _ _ _ _ _ _ _ H1) as [U1 S1]. specialize (S1 _ _ eq_refl).
  destruct (err_eqb rc EST_ERR_NONE) eqn:Er; cbn [negb] in H.
  2: { apply pret_inv in H as [-> ->]. left. split; [now rewrite ups_app, U1|]. right. exists rc, s1. split; [reflexivity|]. split; [intros ->; discriminate|apply S1]. }
  apply err_eqb_eq in Er. subst rc. apply own_checks_pass in H1 as (d & -> & _ & Ck & Qd & Ad).
  destruct have_ctx eqn:Hc; cbn [negb] in H.
  2: { apply pret_inv in H as [-> ->]. left. split; [now rewrite ups_app, U1|]. right. eexists _, s1. split; [reflexivity|]. split; [discriminate|apply S1]. }
  destruct (choose_run path s1) as (c0 & Hch & Ch). apply pbind_inv in H as [[H _]|(e3 & rc & s2 & e4 & H1 & H & ->)]; [rewrite Hch in H; discriminate|].
  rewrite Hch in H1. injection H1 as <- <- <-. change (negb (err_eqb EST_ERR_NONE EST_ERR_NONE)) with false in H. cbv iota in H. cbn [Datatypes.app].
  destruct (RelayCourse.try_course (key := key) C X n (op_of k) body (put_client s1 c0)) as (evs & out & w' & Co & Tr). cbn [put_client p_up Client.s_c Client.s_env] in Co.
  destruct S1 as [S1 S2]. rewrite S1 in Co, Ch. right.
  apply pbind_inv in H as [[H ->]|(e5 & [[rv pk] x] & s3 & e6 & H1 & H & ->)].
  { rewrite Tr in H. apply pair_equal_spec in H as [<- H]. destruct out as [[[[? ?] ?] ?]|]; [discriminate|]. exists d, evs, [], c0, UB, w'. cbn [map]. rewrite app_nil_r.
    split; [reflexivity|]. split; [reflexivity|]. split; [exact Ck|]. split; [exact Qd|]. split; [exact Ad|]. split; [exact Ch|]. split; [exact Co|]. now constructor. }
  rewrite Tr in H1. apply pair_equal_spec in H1 as [<- H1]. destruct out as [[[[rv0 pk0] x0] c1]|]; [|discriminate]. cbn [RelayCourse.after] in H1.
  injection H1 as <- <- <- <-.
  assert (G : exists dd, e6 = map Dn dd /\ passed k s (Ok (rv0, pk0, x0, c1)) w' dd r).
  2: { destruct G as (dd & -> & G). exists d, evs, dd, c0, (Ok (rv0, pk0, x0, c1)), w'. auto 12. }
  destruct (course_result _ _ _ _ _ _ _ _ _ _ _ Co) as [(-> & b & reads & _ & Y)|(Ne & -> & ->)].
  - replace ((0 <? len x0) && (negb (is_skg k) || (0 <? len pk0))) with true in H.
    2: { destruct Y as [Lx Y]. destruct k; cbn [is_skg negb orb op_of Client.is_keygen] in *; destruct Y as [_ Y]; lia. }
    destruct (is_http C) eqn:Hh.
    + assert (H' : pbind (dn (passes_back k pk0 x0)) (fun rv2 => pret (rv2, pk0, x0)) (RelayCourse.with_up (put_client s1 c0) (RelayCourse.reset c1) w' (k_delay (Client.c_http c1))) = (e6, r)).
      { unfold passes_back. unfold propagate_keygen_rsp, propagate_pkcs7 in H. destruct (is_skg k); exact H. }
      clear H. apply pbind_inv in H' as [[H _]|(e7 & rv2 & s4 & e8 & H1 & H & ->)].
      { apply dn_inv in H as (dd & r0 & H & _ & [[-> _]|(? & ? & _ & H')]); [|discriminate]. destruct (passes_back_ok k pk0 x0 (p_dn (RelayCourse.with_up (put_client s1 c0) (RelayCourse.reset c1) w' (k_delay (Client.c_http c1))))) as (? & ? & ? & Q). rewrite Q in H. discriminate. }
      apply dn_inv in H1 as (dd & r0 & H1 & -> & [[_ H']|(y & u & -> & H')]); [discriminate|]. injection H' as <- ->. apply pret_inv in H as [-> ->]. exists dd. rewrite app_nil_r. split; [reflexivity|].
      eapply passed_http; [reflexivity|exact Hh|exact H1|]. split; reflexivity.
    + apply pbind_inv in H as [[H _]|(e7 & rv2 & s4 & e8 & H1 & H & ->)]; [discriminate|]. apply pret_inv in H1 as [-> H1]. injection H1 as -> ->. apply pret_inv in H as [-> ->]. exists []. split; [reflexivity|].
      eapply passed_coap; [reflexivity|exact Hh|split; reflexivity].
  - change (0 <? len (@nil Z)) with false in H. cbn [andb] in H. apply pret_inv in H as [-> ->]. exists []. split; [reflexivity|]. eapply passed_error; [reflexivity|exact Ne|split; reflexivity].
Qed.
End P.
