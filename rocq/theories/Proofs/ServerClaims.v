(** Consequences of the paths through the server, one per property. *)
From Coq Require Import String ZArith List Bool Lia ZifyBool ZifyNat.
From Verif Require Import Base Spec.Http Spec.Server Model.CLib Model.Codec Model.EstErr Model.HttpServer Model.Uri
  Model.AuthHdr Model.Server Proofs.AuthHdr Proofs.ServerAuth Proofs.ServerEnroll Proofs.ServerRequest Proofs.ServerProps
  Proofs.ServerCA Proofs.ServerReply Proofs.ServerResponse.
Import ListNotations.
Open Scope Z_scope.

Lemma strncmp_starts : forall b a n, length b = n -> strncmp_eq n a b = true <-> starts_with b a.
Proof.
  induction b as [|y b IH]; intros a n <-; cbn [length strncmp_eq].
  - split; auto. intros _. now exists a.
  - destruct a as [|x a].
    + split; [discriminate|]. now intros [r H].
    + rewrite andb_true_iff, IH by reflexivity. split.
      * intros [H [r ->]]. exists r. cbn. f_equal. lia.
      * intros [r H]. cbn in H. inversion H; subst. split; [lia|]. now exists r.
Qed.
Lemma strncmp_short : forall n a b, (length b < n)%nat -> strncmp_eq n a b = true <-> a = b.
Proof. 
  induction n as [|n IH]; intros a b H; [lia|]. destruct a as [|x a], b as [|y b]; cbn [strncmp_eq];
    try (split; [discriminate|discriminate]); [tauto|].
  cbn in H. rewrite andb_true_iff, IH by lia. split; [intros [? ->]; f_equal; lia|intro Q; inversion Q; subst; split; [lia|auto]].
Qed.

Lemma fits_starts : forall o m, method_fits o m = true -> starts_with (required_method o) m.
Proof.
  intros o m H. destruct o; cbn [method_fits required_method] in *; try (now apply strncmp_starts in H).
  apply strncmp_short in H; [|cbn; lia]. subst. exists []. reflexivity.
Qed.
Lemma fits_required : forall o, method_fits o (required_method o) = true.
Proof. destruct o; reflexivity. Qed.

(** ** Enhanced certificate authentication *)
Lemma before_cut : forall f, cut_at 0 f (before_char 0 f).
Proof.
  intro f. unfold cut_at, before_char. split.
  - induction f as [|x f IH]; cbn; [tauto|]. destruct (x =? 0) eqn:Ex; cbn; [tauto|]. intros [->|I]; [lia|tauto].
  - induction f as [|x f IH]; cbn; [now left|]. destruct (x =? 0) eqn:Ex; cbn.
    + right. exists f. f_equal. lia.
    + destruct IH as [IH|[r IH]]; [left; congruence|right; exists r; congruence].
Qed.

Lemma strncmp_firstn : forall n a b, strncmp_eq n a b = true -> firstn n a = firstn n b.
Proof.
  induction n as [|n IH]; intros a b H; auto. destruct a as [|x a], b as [|y b]; cbn [strncmp_eq] in H; try discriminate; auto.
  apply andb_prop in H as [H1 H2]. cbn. f_equal; [lia|auto].
Qed.

Section E.
Context {cert csr key : Type}.
Variable O : @ossl cert csr key.
Variable C : @config cert.
Implicit Types (c : cert) (r : csr) (l : list (@mfg cert)).

Lemma same_field_intro : forall c r nid a b, field_str (o_cert_field O c nid) = Some a ->
  field_str (o_csr_field O r nid) = Some b -> firstn 256 a = firstn 256 b -> same_field O c r nid.
Proof.
  intros c r nid a b Ha Hb H. unfold field_str in *.
  destruct (o_cert_field O c nid) as [f|] eqn:Ef; [|discriminate]. destruct (o_csr_field O r nid) as [g|] eqn:Eg; [|discriminate].
  apply (f_equal (fun o => match o with Some x => x | None => [] end)) in Ha, Hb. cbn [option_map] in Ha, Hb. subst a b.
  exists f, g, (firstn 256 (before_char 0 f)). repeat split; auto.
  - exists (before_char 0 f). split; [apply before_cut|reflexivity].
  - exists (before_char 0 g). split; [apply before_cut|exact H].
Qed.

Lemma cmp_same : forall a b, cmp_fields a b = Same -> firstn 256 a = firstn 256 b.
Proof.
  intros a b H. unfold cmp_fields in H. destruct (negb _) eqn:En; [discriminate|]. destruct (_ =? 0); [discriminate|].
  destruct (strncmp_eq _ a b) eqn:Es; [|discriminate]. apply strncmp_firstn in Es. unfold len in *.
  destruct (Z_le_gt_dec 256 (Z.of_nat (length a))).
  - replace (Z.to_nat (Z.min 256 (Z.of_nat (length a)))) with 256%nat in Es by lia. exact Es.
  - replace (Z.to_nat (Z.min 256 (Z.of_nat (length a)))) with (length a) in Es by lia.
    rewrite firstn_all in Es. rewrite (firstn_all2 (n:=256) a) by lia.
    rewrite firstn_all2 in Es by lia. rewrite firstn_all2 by lia. exact Es.
Qed.
Lemma cmp_empty : forall a b, cmp_fields a b = SafeCErr -> firstn 256 a = firstn 256 b.
Proof.
  intros a b H. unfold cmp_fields in H. destruct (negb _) eqn:En; [discriminate|]. destruct (_ =? 0) eqn:E0.
  - unfold len in *. destruct a, b; cbn [length] in *; auto; lia.
  - destruct (strncmp_eq _ a b); discriminate.
Qed.

Lemma get_mfg_spec : forall l i c rv err idx, 0 <= i -> get_mfg_loop l i c rv = (err, idx) ->
  err_eqb err EST_ERR_NONE || err_eqb err EST_ERR_VALIDATION = true ->
  (exists m, idx = i + Z.of_nat (length (fst (fst m))) /\ l = fst (fst m) ++ snd (fst m) :: snd m
     /\ m_usable (snd (fst m)) = true /\ m_verify (snd (fst m)) c <> 0
     /\ forall x, In x (fst (fst m)) -> m_usable x = true -> m_verify x c = 0)
  \/ (idx = -1 /\ no_manufacturer l c).
Proof.
  induction l as [|m l IH]; intros i c rv err idx Hi H He; cbn [get_mfg_loop] in H.
  - inversion H; subst. right. split; auto. intros x [].
  - destruct (m_usable m) eqn:Eu.
    + destruct (negb (m_init m c)). { inversion H; subst. discriminate. }
      destruct (m_verify m c =? 0) eqn:Ev.
      * apply IH in H as [([[l1 m1] l2] & -> & -> & U & V & F)|[-> N]]; auto; [| |lia].
        -- left. cbn [fst snd] in *. exists (m :: l1, m1, l2). cbn [fst snd length]. do 4 (split; [solve [auto|lia|reflexivity]|]).
           intros x [<-|I] Ux; auto. lia.
        -- right. split; auto. intros x [<-|I] Ux; [lia|]. now apply N.
      * inversion H; subst. left. exists ([], m, l). cbn. do 4 (split; [solve [auto|lia]|]). intros x [].
    + apply IH in H as [([[l1 m1] l2] & -> & -> & U & V & F)|[-> N]]; auto; [| |lia].
      -- left. cbn [fst snd] in *. exists (m :: l1, m1, l2). cbn [fst snd length]. do 4 (split; [solve [auto|lia|reflexivity]|]).
         intros x [<-|I] Ux; auto. congruence.
      -- right. split; auto. intros x [<-|I] Ux; [congruence|]. now apply N.
Qed.

Lemma local_loop_spec : forall l c r ind, local_loop O l c r ind = false ->
  (exists m, In m l /\ m_usable m = true /\ same_field O c r (m_nid m))
  \/ (ind = false /\ forall m, In m l -> m_usable m = false).
Proof.
  induction l as [|m l IH]; intros c r ind H; cbn [local_loop] in H.
  - right. split; auto. intros m [].
  - assert (S1 : forall i, local_loop O l c r i = false ->
      m_usable m = false -> i = ind ->
      (exists m0, In m0 (m :: l) /\ m_usable m0 = true /\ same_field O c r (m_nid m0))
      \/ (ind = false /\ forall m0, In m0 (m :: l) -> m_usable m0 = false)).
    { intros i Hi Um ->. destruct (IH _ _ _ Hi) as [(x & I & U & S)|[-> N]]; [left; exists x; cbn; auto|].
      right. split; auto. intros y [<-|I]; auto. }
    assert (S2 : local_loop O l c r true = false ->
      exists m0, In m0 (m :: l) /\ m_usable m0 = true /\ same_field O c r (m_nid m0)).
    { intro Hi. destruct (IH _ _ _ Hi) as [(x & I & U & S)|[? _]]; [|discriminate]. exists x; cbn; auto. }
    destruct (m_usable m) eqn:Eu; [|eauto].
    destruct (field_str (o_cert_field O c (m_nid m))) as [a|] eqn:Ea; [|left; auto].
    destruct (field_str (o_csr_field O r (m_nid m))) as [b|] eqn:Eb; [|left; auto].
    destruct (cmp_fields a b) eqn:Ec; auto.
    + left. exists m. split; [now left|]. split; auto. apply cmp_empty in Ec. eapply same_field_intro; eauto.
    + left. exists m. split; [now left|]. split; auto. apply cmp_same in Ec. eapply same_field_intro; eauto.
Qed.

Notation csr_matches := (Spec.Server.csr_matches O C).
Lemma eca_good : forall t c body check a ro,
  handle_eca O C t c body check est_create_ah = (HDR_GOOD, a, ro) ->
  (exists nid f v pw, identifying_nid C c nid /\ o_cert_field O c nid = Some f /\ field_text f v
     /\ ah_mode a = AUTH_BASIC /\ ah_user a = Some v /\ ah_pwd a = Some pw /\ pw = firstn 256 (c_eca_pwd C))
  /\ (check = true -> exists r, o_parse_csr O body = Some r /\ csr_matches c r).
Proof.
  intros t c body check a ro H. unfold handle_eca in H.
  destruct (negb (t_chain t)); [discriminate|].
  destruct (est_enhcd_cert_auth_get_mfg C c) as [err idx] eqn:Em.
  destruct (err_eqb err EST_ERR_NONE || err_eqb err EST_ERR_VALIDATION) eqn:Ee; [|discriminate].
  set (nid := if 0 <=? idx then _ else _) in H.
  assert (B : forall (r0 : option csr) a (ro : option csr), (let '(h, a') := build_eca_header O C est_create_ah c nid in (h, a', r0)) = (HDR_GOOD, a, ro) ->
     exists f v pw, o_cert_field O c nid = Some f /\ field_text f v
     /\ ah_mode a = AUTH_BASIC /\ ah_user a = Some v /\ ah_pwd a = Some pw /\ pw = firstn 256 (c_eca_pwd C)).
  { intros r0 a1 ro1 Q. unfold build_eca_header, field_str in Q. destruct (o_cert_field O c nid) as [f|]; [|discriminate].
    cbn [option_map] in Q. exists f, (firstn 256 (before_char 0 f)), (firstn 256 (c_eca_pwd C)).
    change (Z.to_nat 256) with 256%nat in Q.
    assert (E1 : strndup (before_char 0 f) 256 = firstn 256 (before_char 0 f)) by reflexivity.
    assert (E2 : strndup (c_eca_pwd C) 256 = firstn 256 (c_eca_pwd C)) by reflexivity.
    rewrite E1, E2 in Q. set (v := firstn 256 (before_char 0 f)) in *. set (pw := firstn 256 (c_eca_pwd C)) in *.
    assert (FT : field_text f v) by (exists (before_char 0 f); split; [apply before_cut|reflexivity]).
    clearbody v pw. injection Q as <- <-. cbn. auto 8. }
  assert (ID : identifying_nid C c nid
    /\ (0 <= idx -> exists l m, c_mfgs C = Some l /\ manufacturer_of l c m /\ nth_error l (Z.to_nat idx) = Some m)
    /\ (idx < 0 -> c_mfgs C = None \/ exists l, c_mfgs C = Some l /\ no_manufacturer l c)).
  { unfold est_enhcd_cert_auth_get_mfg in Em. destruct (c_mfgs C) as [l|] eqn:El.
    - apply get_mfg_spec in Em as [([[l1 m] l2] & -> & -> & U & V & F)|[-> N]]; auto; [| |lia]; cbn [fst snd] in *.
      + assert (MO : manufacturer_of (l1 ++ m :: l2) c m) by (exists l1, l2; auto).
        assert (NT : nth_error (l1 ++ m :: l2) (Z.to_nat (0 + Z.of_nat (length l1))) = Some m).
        { rewrite nth_error_app2 by lia. replace (Z.to_nat (0 + Z.of_nat (length l1)) - length l1)%nat with 0%nat by lia. reflexivity. }
        split; [|split; [intros _; eauto 6|intro; lia]].
        left. exists (l1 ++ m :: l2), m. split; auto. split; auto. unfold nid. rewrite NT.
        replace (0 <=? _) with true by lia. reflexivity.
      + split; [|split; [lia|intro; eauto]]. right. split; eauto.
    - inversion Em; subst. split; [|split; [lia|auto]]. right. auto. }
  destruct ID as (ID & I1 & I2).
  destruct check.
  - destruct (o_parse_csr O body) as [r|] eqn:Er; [|discriminate].
    destruct (perform_csr_check O C c r idx) eqn:Ep; try discriminate.
    split; [apply B in H as (f & v & pw & ?); exists nid, f, v, pw; auto|].
    intros _. exists r. split; auto. unfold perform_csr_check in Ep.
    destruct (c_mfgs C) as [l|] eqn:El; [|discriminate]. exists l. split; auto.
    destruct (0 <=? idx) eqn:Ei.
    + destruct (I1 ltac:(lia)) as (l0 & m & Q & MO & NT). injection Q as <-. rewrite NT in Ep. left. exists m. split; auto.
      destruct (field_str (o_cert_field O c (m_nid m))) as [a1|] eqn:Ea; [|discriminate].
      destruct (field_str (o_csr_field O r (m_nid m))) as [b1|] eqn:Eb; [|discriminate].
      destruct (cmp_fields a1 b1) eqn:Ec; try discriminate. apply cmp_same in Ec. eapply same_field_intro; eauto.
    + right. destruct (I2 ltac:(lia)) as [Q|(l0 & Q & N)]; [discriminate|]. injection Q as <-. split; auto.
      destruct (local_loop O l c r false) eqn:Ell; [discriminate|].
      apply local_loop_spec in Ell as [?|[_ ?]]; auto.
  - split; [apply B in H as (f & v & pw & ?); exists nid, f, v, pw; auto|discriminate].
Qed.
(** A malformed verdict comes from a failing OpenSSL call. *)
Lemma eca_bad : forall t c body check a ro,
  handle_eca O C t c body check est_create_ah = (HDR_BAD, a, ro) ->
  exists l m, c_mfgs C = Some l /\ In m l /\ m_usable m = true /\ m_init m c = false.
Proof.
  intros t c body check a ro H. unfold handle_eca in H.
  destruct (negb (t_chain t)); [discriminate|].
  destruct (est_enhcd_cert_auth_get_mfg C c) as [err idx] eqn:Em.
  destruct (err_eqb err EST_ERR_NONE || err_eqb err EST_ERR_VALIDATION) eqn:Ee.
  - exfalso. set (nid := if 0 <=? idx then _ else _) in H. clearbody nid.
    assert (B : forall (r0 : option csr), (let '(h, a') := build_eca_header O C est_create_ah c nid in (h, a', r0)) <> (HDR_BAD, a, ro)).
    { intros r0. unfold build_eca_header. destruct (field_str _); discriminate. }
    destruct check; [|now apply B in H]. destruct (o_parse_csr O body) as [r|]; [|discriminate].
    assert (NB : perform_csr_check O C c r idx <> HDR_BAD).
    { unfold perform_csr_check. repeat match goal with |- context[match ?x with _ => _ end] => destruct x end; discriminate. }
    destruct (perform_csr_check O C c r idx); try discriminate; [now apply B in H|congruence].
  - unfold est_enhcd_cert_auth_get_mfg in Em. destruct (c_mfgs C) as [l|]; [|inversion Em; subst; discriminate].
    exists l. assert (G : forall l i rv, err_eqb rv EST_ERR_NONE || err_eqb rv EST_ERR_VALIDATION = true ->
      get_mfg_loop l i c rv = (err, idx) -> exists m, In m l /\ m_usable m = true /\ m_init m c = false).
    { clear -Ee. induction l as [|m l IH]; intros i rv Hr Hg; cbn [get_mfg_loop] in Hg.
      - inversion Hg; subst. congruence.
      - destruct (m_usable m) eqn:Eu.
        + destruct (m_init m c) eqn:Ei; cbn [negb] in Hg; [|exists m; cbn; auto].
          destruct (m_verify m c =? 0); [|inversion Hg; subst; discriminate].
          apply IH in Hg as (x & ? & ?); [exists x; cbn; auto|reflexivity].
        + apply IH in Hg as (x & ? & ?); [exists x; cbn; auto|auto]. }
    destruct (G l 0 EST_ERR_VALIDATION eq_refl Em) as (m & ? & ?). eauto.
Qed.
End E.

Section P.
Context {cert csr key E : Type}.
Variable O : @ossl cert csr key.
Variable C : @config cert.
Variable A : @app cert key E.
Variable parse_uri : bytes -> res (est_error * option operation * option bytes).
Variable attrs_parse : bytes -> res (est_error * bool).
Variable attrs_add_pop : bytes -> res (est_error * bytes).
Variable attrs_check : option (option bytes) -> bytes -> res est_error.
Variable keep : Z -> bool.
Notation event := (@event cert key).
Notation st := (@st E).
Notation request := (est_http_request O C A parse_uri attrs_parse attrs_add_pop attrs_check keep).
Implicit Types (t : @tls cert) (e : list event) (s : st).

Ltac nonpriv := let Q := fresh in intros [(? & ? & ? & ? & ? & ? & ? & ? & Q)|[(? & ? & Q)|(? & ? & ? & ? & ? & Q)]]; discriminate Q.

(** ** C11 *)
Theorem wrong_method : forall t method uri body ct authz s e r o p,
  parse_uri uri = Ok (EST_ERR_NONE, Some o, p) -> ~ starts_with (required_method o) method ->
  request t method uri body ct authz s = (e, r) ->
  Forall (fun x => x = EvReqStart uri \/ is_write x) e /\ (exists s', r = Ok (EST_ERR_WRONG_METHOD, s'))
  /\ (0 <= c_retry C -> all_sent e -> exists hs d, response (sent e) 400 hs d /\ framed 400 hs d).
Proof.
  intros * Pu Nm H. apply request_paths in H.
  assert (NF : method_fits o method <> true) by (intro Q; apply Nm; now apply fits_starts).
  inversion H; subst; try congruence.
  - match goal with Q : refusal _ _ _ _ _ |- _ => destruct Q as [[Q (? & ? & Q2)]|[[-> _]|[_ (_ & ? & ? & Q2 & Q3 & _)]]] end;
      [congruence| |rewrite Pu in Q2; inversion Q2; subst; congruence].
    match goal with Q : est_send_http_error _ _ _ _ _ = _ |- _ => rename Q into W end.
    split; [|split; [eauto|]].
    + apply Forall_app. split.
      * unfold start_ev, opt_ev. destruct (c_ev_endpoint C); constructor; [now left|constructor].
      * destruct (writes_error A keep _ _ _ _ _ W) as [F _]. eapply Forall_impl; [|exact F]. now right.
    + intros Hr AS. apply all_sent_app in AS as [_ AS].
      destruct (error_replies A keep _ _ _ _ _ Hr W AS) as (s2 & hs & d & _ & R & F & _).
      exists hs, d. rewrite sent_silent_l by apply start_silent. auto.
Qed.

(** ** C14 *)
Theorem http_auth_required : forall t method uri body ct authz s e r pre k b uid peer path rv crt kt post,
  c_transport C = EST_HTTP -> c_http_required C = true -> a_http_auth A <> None ->
  request t method uri body ct authz s = (e, r) -> e = pre ++ EvCA k b uid peer path rv crt kt :: post ->
  (exists a, In (EvHttpAuth a peer path true) pre)
  \/ (k <> SIMPLE_ENROLL_REQ /\ cert_verified t
      /\ ((c_eca C = false /\ exists a u, mg_parse_auth_header (o_bio O) (c_auth_mode C) authz est_create_ah (s_uid s) = Ok (HDR_BAD, a, u))
          \/ (c_eca C = true /\ exists l m c, c_mfgs C = Some l /\ In m l /\ m_usable m = true /\ t_peer t = Some c /\ m_init m c = false))).
Proof.
  intros * HT HR HA H Eq.
  destruct (ca_call _ _ _ _ _ _ _ _ _ _ _ _ _ _ _ _ _ _ _ _ _ _ _ _ _ _ _ H Eq)
    as (o & c & ea & au & ro & s1 & mid & ec & rq & Pu & En & Kd & Mf & Ct & P10 & -> & -> & Au & Gr & _).
  assert (IN : forall x, In x ea -> In x (start_ev C uri ++ req_ev O C o body ++ ea ++ mid ++ ec))
    by (intros x I; apply in_or_app; right; apply in_or_app; right; apply in_or_app; now left).
  assert (NG : forall x, granted x -> x <> UNAUTHORIZED /\ x <> CSR_PARSE_FAIL /\ x <> HTTP_AUTH_PENDING)
    by (intros x [->|[->| ->]]; repeat split; discriminate).
  assert (VER : forall c0, not_rejected t -> t_peer t = Some c0 -> cert_verified t).
  { intros c0 NR Ep. exists c0. split; auto. apply NR. congruence. }
  destruct (NG _ Gr) as (N1 & N2 & N3). clear NG.
  inversion Au; subst; try congruence.
  - match goal with Q : _ \/ _ |- _ => destruct Q as [?|[_ ?]]; congruence end.
  - left. destruct ok; [|congruence]. exists a. apply IN. now left.
  - right. rewrite HT in *. destruct pr; cbn [refused_state] in *; try congruence.
    destruct (kind_nonzero (kind_of o)) eqn:Kz; cbn [andb auth_state_eqb] in *; [|congruence].
    split; [intro Q; rewrite Q in Kz; discriminate|]. split; [eauto|]. right. split; auto.
    match goal with Q : handle_eca _ _ _ _ _ _ _ = _ |- _ => apply eca_bad in Q as (l & m & ? & ? & ? & ?) end.
    eauto 10.
  - left. destruct ok; [|congruence]. exists a. apply IN. now left.
  - right. destruct pr; cbn [refused_state] in *; try congruence.
    destruct (kind_nonzero (kind_of o)) eqn:Kz; cbn [andb] in *; [|congruence].
    destruct (tls_state t) eqn:Et; cbn [auth_state_eqb] in *; try congruence.
    assert (exists c0, t_peer t = Some c0) as [c0 Ep].
    { unfold tls_state in Et. destruct (t_peer t); eauto. destruct (is_some (t_srp t)); discriminate. }
    split; [intro Q; rewrite Q in Kz; discriminate|]. split; [eauto|]. left. split; eauto.
    destruct (c_eca C); auto. match goal with Q : true = true -> _ |- _ => rewrite (Q eq_refl) in Ep; discriminate end.
Qed.

(** ** C15, C16 *)
Lemma prepared_csr : forall k body mid r b pre1 ec, prepared O k body mid r b ->
  csr_of_request O (pre1 ++ mid ++ ec) k body b r.
Proof.
  intros k body mid r b pre1 ec H. destruct k; cbn in *; try tauto.
  destruct H as (r0 & r1 & pk & x & -> & P & S1 & S2 & -> & _). exists r0, r1, pk.
  split; auto. split; [|auto]. apply in_or_app. right. now left.
Qed.

Lemma uid_auth_bound : forall t r, est_tls_uid_auth O C t r = Ok EST_ERR_NONE ->
  c_pop C = true \/ o_challenge O r <> NoAttr -> bound_to_session O t r.
Proof.
  intros t r H N. unfold est_tls_uid_auth in H. destruct (o_challenge O r) as [| | |d] eqn:Ec; try discriminate.
  - destruct (c_pop C); [discriminate|]. destruct N as [?|N]; [discriminate|]. congruence.
  - destruct (t_uid t); discriminate.
  - destruct (t_uid t) as [u|] eqn:Eu; [|discriminate]. unfold memcmp_eq in H.
    destruct ((len u <=? len u) && (len u <=? len (d ++ [0]))) eqn:El; [|discriminate]. cbn [bind] in H.
    destruct (beq _ _) eqn:Eb; [|discriminate]. apply beq_eq in Eb.
    exists u, d, (skipn (length u) (d ++ [0])). split; auto. split; auto.
    unfold len in Eb. rewrite !Nat2Z.id, firstn_all in Eb. rewrite Eb at 1. now rewrite firstn_skipn.
Qed.

Lemma cmcRA_iff : forall t c, t_peer t = Some c -> est_check_cmcRA O c = true -> registration_authority O t.
Proof.
  intros t c Ep H. unfold est_check_cmcRA in H. destruct (o_eku O c) as [l|] eqn:El; [|discriminate].
  apply existsb_exists in H as (x & I & Eb). apply beq_eq in Eb. subst. exists c, l. auto.
Qed.

Theorem ca_csr : forall t method uri body ct authz s e r pre k b uid peer path rv crt kt post,
  request t method uri body ct authz s = (e, r) -> e = pre ++ EvCA k b uid peer path rv crt kt :: post ->
  exists rq, csr_of_request O pre k body b rq /\ good_csr O rq
    /\ (registration_authority O t \/ (c_pop C = true \/ o_challenge O rq <> NoAttr -> bound_to_session O t rq))
    /\ (c_enforce C = true -> (a_csrattrs A = None /\ c_csrattrs C = None)
        \/ (exists d, a_csrattrs A = None /\ c_csrattrs C = Some d /\ attrs_check (Some (Some d)) b = Ok EST_ERR_NONE)
        \/ (exists d, In (EvCsrattrs None d) pre /\ attrs_check (Some d) b = Ok EST_ERR_NONE)).
Proof.
  intros * H Eq.
  destruct (ca_call _ _ _ _ _ _ _ _ _ _ _ _ _ _ _ _ _ _ _ _ _ _ _ _ _ _ _ H Eq)
    as (o & c & ea & au & ro & s1 & mid & ec & rq & Pu & En & Kd & Mf & Ct & P10 & -> & -> & Au & Gr & Pr & Gc & Ps & Ap & _).
  exists rq. split; [|split; [auto|split]].
  - replace (start_ev C uri ++ req_ev O C o body ++ ea ++ mid ++ ec)
      with ((start_ev C uri ++ req_ev O C o body ++ ea) ++ mid ++ ec) by now rewrite !app_assoc.
    now apply prepared_csr.
  - destruct Ps as [Ps|Ps].
    + left. destruct (t_peer t) as [c0|] eqn:Ep; [|easy]. eapply cmcRA_iff; eauto.
    + right. now apply uid_auth_bound.
  - intro Ce. destruct Ap as [[Q _]|[(_ & ? & ? & _)|[(_ & ? & (d & ? & ?) & _)|(_ & d & -> & ?)]]]; [congruence|auto|eauto 6|].
    right; right. exists d. split; auto. rewrite !in_app_iff. cbn. tauto.
Qed.

(** ** C17 *)
Theorem rejected_cert : forall t method uri body ct authz s e r, cert_rejected t ->
  request t method uri body ct authz s = (e, r) ->
  (forall x, In x e -> ~ privileged x /\ forall a p q ok, x <> EvHttpAuth a p q ok)
  /\ (forall o p, parse_uri uri = Ok (EST_ERR_NONE, Some o, p) -> posts o = true -> forall s', r <> Ok (EST_ERR_NONE, s')).
Proof.
  intros t method uri body ct authz s e r CR H.
  assert (NR : ~ not_rejected t). { destruct CR as (c & Ep & ? & ?). intro Q. assert (t_peer t <> None) by congruence. specialize (Q H2). lia. }
  assert (CT : check_tls t = (false, None, UNAUTHORIZED)).
  { destruct CR as (c & Ep & ? & ?). unfold check_tls. rewrite Ep. replace ((t_verify t =? 0) || (t_verify t =? 3)) with false by lia. reflexivity. }
  apply request_paths in H.
  pose (P := fun x : event => ~ privileged x /\ forall a p q ok, x <> EvHttpAuth a p q ok).
  assert (Pw : forall x, is_write x -> P x).
  { intros x (d & ok & ->). split; [apply write_nonpriv; eexists _, _; reflexivity|discriminate]. }
  assert (Po : forall b x, P x -> Forall P (opt_ev b x)).
  { intros b x Hx. unfold opt_ev. destruct b; auto. }
  assert (Pres : forall k pr au, Forall P (res_ev C k pr au)).
  { intros. unfold res_ev. destruct (c_ev_auth C); auto. constructor; auto. split; [nonpriv|discriminate]. }
  assert (AUT : forall authz p k body s ea au ro s1, auth_path O C A t authz p k body s ea (Ok (au, ro, s1)) ->
     au = UNAUTHORIZED /\ Forall P ea).
  { intros * Q. inversion Q; subst; try tauto. split; auto. }
  assert (OP : forall o c p eo ro, run_op O C A attrs_parse attrs_add_pop attrs_check keep t authz c body p o s = (eo, ro) ->
     Forall P eo /\ (posts o = true -> ro <> UB /\ forall rc s', ro = Ok (rc, s') -> is_done o rc = false)).
  { intros o c p eo ro Q.
    assert (BA : forall m (m1 : @M cert key E est_error), brski_authed O C A t authz p m1 s = (eo, ro) -> m = m1 ->
      Forall P eo /\ ro = Ok (EST_ERR_AUTH_FAIL, s)).
    { intros _ m1 Q1 _. unfold brski_authed, est_brski_auth in Q1. rewrite CT in Q1. cbn [negb] in Q1.
      rewrite (mbind_eq _ _ _ _ _ _ _ _ (run_result_event C _ _ _ _ _ _)) in Q1. cbn in Q1.
      rewrite app_nil_r in Q1. inversion Q1; subst. auto. }
    assert (EN : forall k, enroll_path O C A attrs_check t authz c body p k s eo ro ->
      Forall P eo /\ ro <> UB /\ forall rc s', ro = Ok (rc, s') -> rc <> EST_ERR_NONE /\ rc <> EST_ERR_AUTH_PENDING).
    { intros k Q1.
      assert (NG : ~ granted UNAUTHORIZED) by (intros [G|[G|G]]; discriminate).
      inversion Q1; subst; try (match goal with Q2 : auth_path _ _ _ _ _ _ _ _ _ _ (Ok _) |- _ => apply AUT in Q2 as [-> F]; try tauto end).
      - split; [constructor|]. split; [discriminate|]. intros rc s' Q2. inversion Q2; subst. split; discriminate.
      - split; [constructor|]. split; [discriminate|]. intros rc s' Q2. inversion Q2; subst. split; discriminate.
      - exfalso. match goal with Q2 : auth_path _ _ _ _ _ _ _ _ _ _ UB |- _ => inversion Q2; subst; tauto end.
      - split; auto. split; [discriminate|]. intros rc s'' Q2. inversion Q2; subst.
        match goal with Q3 : _ \/ _ |- _ => destruct Q3 as [[? _]|[[? _]|[_ ->]]]; try discriminate end. split; discriminate. }
    assert (EN2 : enrolls o = true -> run_enroll O C A attrs_check t authz c body p (kind_of o) s = (eo, ro) ->
      Forall P eo /\ (posts o = true -> ro <> UB /\ forall rc s', ro = Ok (rc, s') -> is_done o rc = false)).
    { intros _ Q1. apply enroll_paths in Q1. apply EN in Q1 as (F & N & G). split; auto. intros _. split; auto.
      intros rc s' Q2. destruct (G _ _ Q2). unfold is_done. destruct rc; auto; congruence. }
    destruct o; cbn [run_op] in Q; auto.
    - apply cacerts_events in Q as [F _]. split; [|discriminate]. eapply Forall_impl; [|exact F].
      intros x [Hx|(? & ? & ->)]; auto. split; [nonpriv|discriminate].
    - apply csrattrs_events in Q as [F _]. split; [|discriminate]. eapply Forall_impl; [|exact F].
      intros x [Hx|(? & ? & ->)]; auto. split; [nonpriv|discriminate].
    - unfold brski_voucher_req in Q. destruct (a_voucher A) as [f|].
      2:{ inversion Q; subst. split; auto. intros _. split; [discriminate|]. intros rc s' Q2. inversion Q2; now subst. }
      destruct (negb _ && negb _).
      { inversion Q; subst. split; auto. intros _. split; [discriminate|]. intros rc s' Q2. inversion Q2; now subst. }
      eapply BA in Q as [F ->]; [|reflexivity]. split; auto. intros _. split; [discriminate|]. intros rc s' Q2. inversion Q2; now subst.
    - unfold brski_status in Q. destruct (a_voucher_status A) as [f|].
      2:{ inversion Q; subst. split; auto. intros _. split; [discriminate|]. intros rc s' Q2. inversion Q2; now subst. }
      destruct (negb _).
      { inversion Q; subst. split; auto. intros _. split; [discriminate|]. intros rc s' Q2. inversion Q2; now subst. }
      eapply BA in Q as [F ->]; [|reflexivity]. split; auto. intros _. split; [discriminate|]. intros rc s' Q2. inversion Q2; now subst.
    - unfold brski_status in Q. destruct (a_enroll_status A) as [f|].
      2:{ inversion Q; subst. split; auto. intros _. split; [discriminate|]. intros rc s' Q2. inversion Q2; now subst. }
      destruct (negb _).
      { inversion Q; subst. split; auto. intros _. split; [discriminate|]. intros rc s' Q2. inversion Q2; now subst. }
      eapply BA in Q as [F ->]; [|reflexivity]. split; auto. intros _. split; [discriminate|]. intros rc s' Q2. inversion Q2; now subst. }
  assert (Ps : Forall P (start_ev C uri)) by (apply Po; split; [nonpriv|discriminate]).
  assert (Pe : Forall P (end_ev C uri)) by (apply Po; split; [nonpriv|discriminate]).
  assert (Pq : forall o, Forall P (req_ev O C o body)) by (intro; apply Po; split; [nonpriv|discriminate]).
  assert (Pr : forall o rc, Forall P (rsp_ev O C o body rc)) by (intros; apply Po; split; [nonpriv|discriminate]).
  assert (Pm : forall err s0 w s1, est_send_http_error A keep (c_retry C) err s0 = (w, Ok (tt, s1)) -> Forall P w).
  { intros * W. destruct (writes_error A keep _ _ _ _ _ W) as [F _]. eapply Forall_impl; [|exact F]. exact Pw. }
  enough (Q : Forall P e /\ (forall o p, parse_uri uri = Ok (EST_ERR_NONE, Some o, p) -> posts o = true -> forall s', r <> Ok (EST_ERR_NONE, s'))).
  { destruct Q as [F G]. split; auto. now rewrite Forall_forall in F. }
  inversion H; subst.
  - split; auto. discriminate.
  - split; [apply Forall_app; eauto|]. intros o p Q1 Q2 s'' Q3. inversion Q3; subst.
    match goal with Q : refusal _ _ _ _ _ |- _ => destruct Q as [[Q _]|[[Q _]|[Q _]]] end; congruence.
  - split; [rewrite !Forall_app; eauto|]. intros o' p' Q1. congruence.
  - match goal with Q : run_op _ _ _ _ _ _ _ _ _ _ _ _ _ _ = _ |- _ => apply OP in Q as [F G] end.
    split; [rewrite !Forall_app; auto|]. discriminate.
  - match goal with Q : run_op _ _ _ _ _ _ _ _ _ _ _ _ _ _ = _ |- _ => apply OP in Q as [F G] end.
    split; [rewrite !Forall_app; repeat split; auto|]. intros o' p' Q1 Q2 s'' Q3.
    rewrite Q1 in *. match goal with Q : Ok _ = Ok (_, Some o, _) |- _ => inversion Q; subst end.
    destruct (G Q2) as [_ G2]. rewrite (G2 _ _ eq_refl) in *. discriminate.
  - match goal with Q : run_op _ _ _ _ _ _ _ _ _ _ _ _ _ _ = _ |- _ => apply OP in Q as [F G] end.
    split; [rewrite !Forall_app; repeat split; eauto|]. intros o' p' Q1 Q2 s'' Q3. inversion Q3; subst.
    discriminate.
Qed.

(** ** C20, C48: the credentials shown to the application *)
(** Where the credentials come from: the Authorization header of this request,
    or the client's certificate. *)
Notation from_header := (Spec.Server.from_header O C).
Notation from_cert := (Spec.Server.from_cert O C).

Lemma auth_creds : forall t authz path k body s e r a peer q ok, auth_path O C A t authz path k body s e r ->
  In (EvHttpAuth a peer q ok) e -> peer = t_peer t /\ q = path /\ ~ cert_rejected t
    /\ (from_header t authz s a \/ from_cert t (Some body) a).
Proof.
  intros * H I.
  assert (NRJ : not_rejected t -> ~ cert_rejected t).
  { intros NR (c & Ep & ? & ?). assert (Q : t_peer t <> None) by congruence. specialize (NR Q). lia. }
  assert (NRES : forall k pr au, ~ In (EvHttpAuth a peer q ok : event) (res_ev C k pr au)).
  { intros * Q. unfold res_ev in Q. destruct (c_ev_auth C); cbn in Q; intuition discriminate. }
  inversion H; subst; try (now apply NRES in I); try (now destruct I).
  - destruct I as [I|I]; [|now apply NRES in I]. inversion I; subst. split; auto. split; auto. split; auto. right.
    match goal with Q : handle_eca _ _ _ _ _ _ _ = _ |- _ => apply eca_good in Q as [G1 G2] end.
    exists c. split; auto. split; auto. split; auto. intros b Q. injection Q as <-. auto.
  - destruct I as [I|I]; [|now apply NRES in I]. inversion I; subst. split; auto. split; auto. split; auto. left.
    split; auto. split; eauto.
  - apply in_app_or in I as [I|I]; [|now apply NRES in I].
    match goal with Q : mg_send_authorization_request _ _ _ = _ |- _ => destruct (writes_challenge C A _ _ _ Q) as [F _] end.
    rewrite Forall_forall in F. apply F in I as (? & ? & Q). discriminate.
Qed.

Lemma brski_creds : forall t authz path s e r a peer q ok, est_brski_auth O C A t authz path s = (e, r) ->
  c_transport C = EST_HTTP ->
  In (EvHttpAuth a peer q ok) e -> peer = t_peer t /\ q = path /\ ~ cert_rejected t
    /\ (from_header t authz s a \/ from_cert t None a).
Proof.
  intros t authz path s e r a peer q ok H HT I. unfold est_brski_auth in H.
  assert (FIN : forall k pr rv s0 e0 r0, mbind (auth_result_event C k pr rv) (fun _ => ret rv) s0 = (e0, r0) ->
     ~ In (EvHttpAuth a peer q ok) e0).
  { intros * Q Q2. rewrite run_result_event in Q. inversion Q; subst. unfold res_ev in Q2.
    destruct (c_ev_auth C); cbn in Q2; intuition discriminate. }
  destruct (check_tls t) as [[cont p0] rv0] eqn:Ht. unfold check_tls in Ht.
  assert (HP : (cont = false) \/ (cont = true /\ ~ cert_rejected t /\ p0 = t_peer t /\ (rv0 = CERT_AUTH \/ rv0 = UNAUTHORIZED /\ t_peer t = None))).
  { destruct (t_peer t) as [c|] eqn:Ep.
    - destruct ((t_verify t =? 0) || (t_verify t =? 3)) eqn:E0; inversion Ht; subst; [|now left].
      right. split; auto. split; auto. intros (c0 & _ & ? & ?). lia.
    - inversion Ht; subst. right. split; auto. split; auto. intros (c0 & Q & _). congruence. }
  destruct HP as [->|(-> & NR & -> & RV)]; cbn [negb] in H; [now apply FIN in H|].
  destruct (is_some (a_http_auth A) && _); [|now apply FIN in H].
  set (rv1 := if negb _ && _ then _ else _) in H.
  apply mbind_inv in H as [[H ->]|(e1 & [pr a1] & s1 & e2 & H1 & H & ->)].
  { exfalso. destruct (t_peer t), (c_eca C && auth_state_eqb rv1 CERT_AUTH); try (inversion H; subst; easy);
      unfold parse_auth, mbind, get_uid, lift, set_uid, ret in H;
      destruct (mg_parse_auth_header _ _ _ _ _) as [[[? ?] ?]|]; cbn in H; inversion H; subst; easy. }
  assert (CR : e1 = [] /\ (pr = HDR_GOOD -> from_header t authz s a1 \/ from_cert t None a1)).
  { assert (PA : (c_eca C = true -> t_peer t = None) -> parse_auth O C authz s = (e1, Ok ((pr, a1), s1)) ->
       e1 = [] /\ (pr = HDR_GOOD -> from_header t authz s a1 \/ from_cert t None a1)).
    { intros Ec Q. unfold parse_auth, mbind, get_uid, lift, set_uid, ret in Q.
      destruct (mg_parse_auth_header _ _ _ _ _) as [[[h0 a0] u0]|] eqn:Em; cbn in Q; inversion Q; subst.
      split; auto. intros ->. left. split; auto. split; eauto. }
    destruct (t_peer t) as [c|] eqn:Ep.
    - destruct (c_eca C && auth_state_eqb rv1 CERT_AUTH) eqn:Ec.
      + assert (EE : c_eca C = true) by (destruct (c_eca C); auto; discriminate).
        destruct (handle_eca O C t c [] false est_create_ah) as [[h0 a0] r0] eqn:He. cbn [fst] in H1. inversion H1; subst.
        split; auto. intros ->. right. apply eca_good in He as [G1 _]. exists c. split; auto. split; auto. split; auto. discriminate.
      + apply PA; auto. intro EE. rewrite EE in Ec. destruct RV as [->|[_ Q]]; [|congruence].
        unfold rv1 in Ec. cbn in Ec. discriminate.
    - apply PA; auto; destruct (c_eca C && auth_state_eqb rv1 CERT_AUTH); auto. }
  destruct CR as [-> CR]. cbn [Datatypes.app] in I.
  apply mbind_inv in H as [[H ->]|(e3 & rv & s2 & e4 & H2 & H & ->)].
  { exfalso. destruct pr; try discriminate H.
    - apply mbind_inv in H as [[H _]|(e5 & ok1 & s3 & e6 & _ & H & ->)]; [|discriminate].
      unfold http_auth_cb in H. destruct (a_http_auth A) as [f|].
      + unfold mbind, call, emit, ret in H. destruct (f _ _ _ _); discriminate.
      + inversion H; subst. easy.
    - apply mbind_inv in H as [[H _]|(e5 & ok1 & s3 & e6 & _ & H & ->)]; [|discriminate].
      destruct (writes_challenge C A _ _ _ H) as [_ (? & ? & ? & _)]. discriminate. }
  apply FIN in H. apply in_app_or in I as [I|I]; [|tauto].
  destruct pr; try (inversion H2; subst; now destruct I).
  - apply mbind_inv in H2 as [[_ H2]|(e5 & ok1 & s3 & e6 & H3 & H2 & ->)]; [discriminate|]. inversion H2; subst.
    unfold http_auth_cb in H3. destruct (a_http_auth A) as [f|]; [|discriminate].
    unfold mbind, call, emit, ret in H3. destruct (f _ _ _ _) as [env ok']. inversion H3; subst. cbn [Datatypes.app] in I.
    destruct I as [I|[]]. inversion I; subst. auto.
  - exfalso. apply mbind_inv in H2 as [[_ H2]|(e5 & ok1 & s3 & e6 & H3 & H2 & ->)]; [discriminate|]. inversion H2; subst.
    destruct (writes_challenge C A _ _ _ H3) as [F _]. rewrite app_nil_r in I. rewrite Forall_forall in F.
    apply F in I as (? & ? & Q). discriminate.
Qed.

Definition not_auth (x : event) : Prop := forall a p q ok, x <> EvHttpAuth a p q ok.
Lemma write_not_auth : forall l, Forall is_write l -> Forall not_auth l.
Proof. intros l F. eapply Forall_impl; [|exact F]. intros x (? & ? & ->) ? ? ? ?. discriminate. Qed.

(** Authentication events of a request come from its authentication step. *)
Lemma enroll_auth_events : forall t authz c body path k s e r, enroll_path O C A attrs_check t authz c body path k s e r ->
  (exists ea ra mid, auth_path O C A t authz path k body s ea ra /\ e = ea ++ mid /\ Forall not_auth mid) \/ e = [].
Proof.
  intros * H.
  assert (PR : forall k body mid r b, prepared O k body mid r b -> Forall not_auth mid).
  { intros k0 ? mid ? ? Q. destruct k0; cbn in Q; [destruct Q as (-> & _); constructor..|].
    destruct Q as (? & ? & ? & ? & -> & _). constructor; [|constructor]. intros ? ? ? ?; discriminate. }
  assert (CK : forall r b s ec ro, checks_path O C A attrs_check t r b s ec ro -> Forall not_auth ec).
  { intros * Q. inversion Q; subst; auto.
    - match goal with Q2 : attrs_crash _ _ _ _ _ |- _ => destruct Q2 as (_ & [(_ & _ & ->)|[(d & _ & _ & ->)|(d & -> & _)]]) end; try constructor; [|constructor].
      intros ? ? ? ?; discriminate.
    - match goal with Q2 : attrs_absent _ _ _ _ _ |- _ => destruct Q2 as [_ [(_ & _ & ->)|[(er & _ & _ & _ & ->)|(d & er & -> & _)]]] end; try constructor; [|constructor].
      intros ? ? ? ?; discriminate.
    - match goal with Q2 : attrs_present _ _ _ _ _ |- _ => destruct Q2 as [(_ & ->)|[(_ & _ & _ & ->)|[(_ & _ & _ & ->)|(_ & d & -> & _)]]] end;
        constructor; [|constructor]. intros ? ? ? ?; discriminate. }
  inversion H; subst; auto; left.
  - eexists e, _, []. split; [eassumption|]. now rewrite app_nil_r.
  - eexists e, _, []. split; [eassumption|]. now rewrite app_nil_r.
  - eexists e, _, []. split; [eassumption|]. now rewrite app_nil_r.
  - eexists _, _, _. split; [eassumption|]. split; [reflexivity|]. constructor; [|constructor]. intros ? ? ? ?; discriminate.
  - eexists _, _, _. split; [eassumption|]. split; [reflexivity|]. constructor; [|constructor]. intros ? ? ? ?; discriminate.
  - eexists _, _, _. split; [eassumption|]. split; [reflexivity|]. eauto.
  - eexists _, _, _. split; [eassumption|]. split; [reflexivity|]. apply Forall_app; split; eauto.
  - eexists _, _, _. split; [eassumption|]. split; [reflexivity|]. apply Forall_app; split; eauto.
  - eexists _, _, _. split; [eassumption|]. split; [reflexivity|]. apply Forall_app; split; eauto.
  - eexists _, _, _. split; [eassumption|]. split; [reflexivity|]. rewrite !Forall_app.
    split; [eauto|]. split; [eauto|]. constructor; [intros ? ? ? ?; discriminate|].
    match goal with Q : outcome _ _ _ _ _ _ _ _ _ _ |- _ => unfold outcome in Q end.
    destruct (_ && _).
    + destruct (is_http C).
      * destruct k;
        match goal with Q : _ = (w, Ok _) |- _ =>
          apply write_not_auth; first [destruct (writes_200 A _ _ _ _ _ Q) as [F _]|destruct (writes_all A _ _ _ _ Q) as [F _]]; exact F end.
      * match goal with Q : w = [] /\ _ |- _ => destruct Q as (-> & _) end. constructor.
    + match goal with Q : w = [] /\ _ |- _ => destruct Q as (-> & _) end. constructor.
Qed.

Lemma brski_auth_events : forall t authz path (m : @M cert key E est_error) s e r,
  (forall s e r, m s = (e, r) -> Forall not_auth e) ->
  brski_authed O C A t authz path m s = (e, r) ->
  exists ea ra mid, est_brski_auth O C A t authz path s = (ea, ra) /\ e = ea ++ mid /\ Forall not_auth mid.
Proof.
  intros * Hm H. unfold brski_authed in H. apply mbind_inv in H as [[H ->]|(e1 & au & s1 & e2 & H1 & H & ->)].
  - exists e, UB, []. rewrite app_nil_r. auto.
  - exists e1, (Ok (au, s1)), e2. split; auto. split; auto. destruct au; eauto; inversion H; subst; constructor.
Qed.

Theorem credentials : forall t method uri body ct authz s e r a peer q ok,
  c_transport C = EST_HTTP ->
  request t method uri body ct authz s = (e, r) -> In (EvHttpAuth a peer q ok) e ->
  exists o, parse_uri uri = Ok (EST_ERR_NONE, Some o, q) /\ posts o = true
    /\ peer = t_peer t /\ ~ cert_rejected t
    /\ (from_header t authz s a \/ from_cert t (if enrolls o then Some body else None) a).
Proof.
  intros t method uri body ct authz s e r a peer q ok HT H I. apply request_paths in H.
  set (X := EvHttpAuth a peer q ok : event) in *.
  assert (NX : forall l, Forall not_auth l -> ~ In X l).
  { intros l F Q. rewrite Forall_forall in F. now apply (F _ Q a peer q ok). }
  assert (No : forall b x, not_auth x -> ~ In X (opt_ev b x)).
  { intros b x Hx. apply NX. unfold opt_ev. destruct b; auto. }
  assert (Ns : ~ In X (start_ev C uri)) by (apply No; intros ? ? ? ?; discriminate).
  assert (Ne : ~ In X (end_ev C uri)) by (apply No; intros ? ? ? ?; discriminate).
  assert (Nq : forall o, ~ In X (req_ev O C o body)) by (intro; apply No; intros ? ? ? ?; discriminate).
  assert (Nr : forall o rc, ~ In X (rsp_ev O C o body rc)) by (intros; apply No; intros ? ? ? ?; discriminate).
  assert (Nm : forall err s0 w s1, est_send_http_error A keep (c_retry C) err s0 = (w, Ok (tt, s1)) -> ~ In X w).
  { intros * W. destruct (writes_error A keep _ _ _ _ _ W) as [F _]. apply NX, write_not_auth, F. }
  assert (OP : forall o c p eo ro, run_op O C A attrs_parse attrs_add_pop attrs_check keep t authz c body p o s = (eo, ro) ->
     In X eo -> posts o = true /\ peer = t_peer t /\ q = p /\ ~ cert_rejected t
       /\ (from_header t authz s a \/ from_cert t (if enrolls o then Some body else None) a)).
  { intros o c p eo ro Q Ix.
    assert (EN : forall k, enroll_path O C A attrs_check t authz c body p k s eo ro ->
       peer = t_peer t /\ q = p /\ ~ cert_rejected t /\ (from_header t authz s a \/ from_cert t (Some body) a)).
    { intros k Q1. apply enroll_auth_events in Q1 as [(ea & ra & mid & Q1 & -> & F)| ->]; [|now destruct Ix].
      apply in_app_or in Ix as [Ix|Ix]; [|now apply (NX mid) in Ix]. eapply auth_creds; eauto. }
    assert (BR : forall m, (forall s e r, m s = (e, r) -> Forall not_auth e) -> brski_authed O C A t authz p m s = (eo, ro) ->
       peer = t_peer t /\ q = p /\ ~ cert_rejected t /\ (from_header t authz s a \/ from_cert t None a)).
    { intros m Hm Q1. apply brski_auth_events in Q1 as (ea & ra & mid & Q1 & -> & F); auto.
      apply in_app_or in Ix as [Ix|Ix]; [|now apply (NX mid) in Ix]. eapply brski_creds; eauto. }
    assert (W : forall (m : @M cert key E est_error), writes m -> forall s e r, m s = (e, r) -> Forall not_auth e).
    { intros m Wm s0 e0 r0 Q1. apply write_not_auth. now destruct (Wm _ _ _ Q1). }
    assert (ST : forall o1 (f : E -> bytes -> option cert -> E * Z) s0 e0 r0,
      mbind (call (fun x0 : E => f x0 body (t_peer t))) (fun rv => mbind (emit (EvVoucher o1 body (t_peer t) rv []))
        (fun _ => if rv =? 1 then mbind (mg_write A (str "HTTP/1.1 200 OK" ++ EOL ++ str "Status: 200 OK" ++ EOL))
             (fun ok => ret (if (ok : bool) then EST_ERR_NONE else EST_ERR_HTTP_WRITE)) else ret EST_ERR_CA_ENROLL_FAIL)) s0 = (e0, r0) ->
      Forall not_auth e0).
    { intros o1 f s0 e0 r0 H0. apply mbind_inv in H0 as [[H0 _]|(e1 & rv & s2 & e2 & H1 & H0 & ->)].
      { unfold call in H0. destruct (f _ _ _); discriminate. }
      unfold call in H1. destruct (f _ _ _). inversion H1; subst. clear H1.
      apply mbind_inv in H0 as [[H0 _]|(e3 & [] & s3 & e4 & H3 & H0 & ->)]; [discriminate|]. inversion H3; subst. clear H3.
      cbn [Datatypes.app]. constructor; [intros ? ? ? ?; discriminate|].
      revert H0. apply W. destruct (rv =? 1); [|apply writes_ret]. apply writes_bind; [apply writes_mg_write|intro; apply writes_ret]. }
    destruct o; cbn [run_op] in Q; cbn [posts enrolls]; try (apply enroll_paths in Q; eauto; fail).
    - exfalso. apply cacerts_events in Q as [F _]. rewrite Forall_forall in F. apply F in Ix as [(? & ? & Q)|(? & ? & Q)]; discriminate.
    - exfalso. apply csrattrs_events in Q as [F _]. rewrite Forall_forall in F. apply F in Ix as [(? & ? & Q)|(? & ? & Q)]; discriminate.
    - split; auto. unfold brski_voucher_req in Q. destruct (a_voucher A) as [f|]; [|inversion Q; subst; now destruct Ix].
      destruct (negb _ && negb _); [inversion Q; subst; now destruct Ix|].
      eapply BR; [|exact Q]. intros s0 e0 r0 H0.
      apply mbind_inv in H0 as [[H0 _]|(e1 & [rv v] & s2 & e2 & H1 & H0 & ->)].
      { unfold call in H0. destruct (f _ _ _); discriminate. }
      unfold call in H1. destruct (f _ _ _). inversion H1; subst. clear H1.
      apply mbind_inv in H0 as [[H0 _]|(e3 & [] & s3 & e4 & H3 & H0 & ->)]; [discriminate|]. inversion H3; subst. clear H3.
      cbn [Datatypes.app]. constructor; [intros ? ? ? ?; discriminate|].
      revert H0. apply W. destruct (_ && _); [apply writes_200|]. destruct (rv =? 2); [|apply writes_ret].
      apply writes_bind; [apply writes_retry|intro; apply writes_ret].
    - split; auto. unfold brski_status in Q. destruct (a_voucher_status A) as [f|]; [|inversion Q; subst; now destruct Ix].
      destruct (negb _); [inversion Q; subst; now destruct Ix|]. eapply BR; [|exact Q]. apply ST.
    - split; auto. unfold brski_status in Q. destruct (a_enroll_status A) as [f|]; [|inversion Q; subst; now destruct Ix].
      destruct (negb _); [inversion Q; subst; now destruct Ix|]. eapply BR; [|exact Q]. apply ST. }
  inversion H; subst; rewrite ?in_app_iff in I.
  - tauto.
  - exfalso. destruct I as [I|I]; [tauto|]. eapply Nm; eauto.
  - exfalso. destruct I as [I|[I|I]]; [tauto| |tauto]. eapply Nm; eauto.
  - destruct I as [I|[I|I]]; [tauto|now apply Nq in I|]. exists o.
    match goal with Q : run_op _ _ _ _ _ _ _ _ _ _ _ _ _ _ = _ |- _ => destruct (OP _ _ _ _ _ Q I) as (? & ? & -> & ? & ?) end. auto.
  - destruct I as [I|[I|[I|[I|I]]]]; [tauto|now apply Nq in I| |now apply Nr in I|tauto]. exists o.
    match goal with Q : run_op _ _ _ _ _ _ _ _ _ _ _ _ _ _ = _ |- _ => destruct (OP _ _ _ _ _ Q I) as (? & ? & -> & ? & ?) end. auto.
  - destruct I as [I|[I|[I|[I|I]]]]; [tauto|now apply Nq in I| |now apply Nr in I|exfalso; eapply Nm; eauto]. exists o.
    match goal with Q : run_op _ _ _ _ _ _ _ _ _ _ _ _ _ _ = _ |- _ => destruct (OP _ _ _ _ _ Q I) as (? & ? & -> & ? & ?) end. auto.
Qed.

Lemma header_uid : forall bio cfg authz uid pr a u',
  mg_parse_auth_header bio cfg authz est_create_ah uid = Ok (pr, a, u') -> pr <> HDR_GOOD -> u' = uid.
Proof.
  intros bio cfg authz uid pr a u' H N. unfold mg_parse_auth_header in H. destruct authz as [h|]; [|congruence].
  repeat match type of H with
  | bind ?m _ = Ok _ => let Q := fresh "Q" in destruct m eqn:Q; [cbn [bind] in H; clear Q|discriminate]
  | (if ?b then _ else _) = _ => destruct b
  | match ah_user ?x with _ => _ end = _ => destruct (ah_user x)
  end; congruence.
Qed.

(** The identity given to the CA. *)
Theorem ca_identity : forall t method uri body ct authz s e r pre k b uid peer path rv crt kt post,
  c_transport C = EST_HTTP ->
  request t method uri body ct authz s = (e, r) -> e = pre ++ EvCA k b uid peer path rv crt kt :: post ->
  (exists a, In (EvHttpAuth a peer path true) pre /\ from_header t authz s a /\ ah_mode a <> AUTH_TOKEN /\ uid = ah_user a /\ uid <> None)
  \/ ((forall a p q, In (EvHttpAuth a p q true) pre -> from_header t authz s a -> ah_mode a = AUTH_TOKEN)
      /\ exists u, cstr (s_uid s) = Ok u /\ uid = Some u).
Proof.
  intros * HT H Eq.
  destruct (ca_call _ _ _ _ _ _ _ _ _ _ _ _ _ _ _ _ _ _ _ _ _ _ _ _ _ _ _ H Eq)
    as (o & c & ea & au & ro & s1 & mid & ec & rq & Pu & En & Kd & Mf & Ct & P10 & -> & -> & Au & Gr & Pr & Gc & Ps & Ap & U & _).
  assert (HH : is_http C = true) by (unfold is_http; now rewrite HT).
  destruct U as [(_ & u & Cu & ->)|[Q _]]; [|congruence].
  assert (INV : forall a p q, In (EvHttpAuth a p q true) (start_ev C uri ++ req_ev O C o body ++ ea ++ mid ++ ec) -> In (EvHttpAuth a p q true) ea).
  { intros a p q I. rewrite !in_app_iff in I. destruct I as [I|[I|[I|[I|I]]]]; auto; exfalso.
    - unfold start_ev, opt_ev in I. destruct (c_ev_endpoint C); cbn in I; intuition discriminate.
    - unfold req_ev, opt_ev in I. destruct (_ && _); cbn in I; intuition discriminate.
    - clear Kd Eq H Au; destruct k; cbn in Pr; [destruct Pr as (-> & _); now destruct I..|].
      destruct Pr as (? & ? & ? & ? & -> & _). cbn in I; intuition discriminate.
    - destruct Ap as [(_ & ->)|[(_ & _ & _ & ->)|[(_ & _ & _ & ->)|(_ & d & -> & _)]]]; cbn in I; intuition discriminate. }
  assert (IN : forall x, In x ea -> In x (start_ev C uri ++ req_ev O C o body ++ ea ++ mid ++ ec))
    by (intros x I; rewrite !in_app_iff; auto).
  assert (NRES : forall k pr au a p q, ~ In (EvHttpAuth a p q true : event) (res_ev C k pr au)).
  { intros * Q. unfold res_ev in Q. destruct (c_ev_auth C); cbn in Q; intuition discriminate. }
  assert (NE : forall pr au0 k0, ea = res_ev C k0 pr au0 ->
    (forall a p q, In (EvHttpAuth a p q true) (start_ev C uri ++ req_ev O C o body ++ ea ++ mid ++ ec) -> from_header t authz s a -> ah_mode a = AUTH_TOKEN)).
  { intros pr au0 k0 -> a p q I _. apply INV in I. now apply NRES in I. }
  inversion Au; subst.
  - destruct Gr as [G|[G|G]]; discriminate.
  - right. split; [eapply NE; reflexivity|]. eauto 8.
  - right. split.
    + intros a1 p q I F. exfalso. apply INV in I as [I|I]; [|now apply NRES in I]. inversion I; subst.
      destruct F as (_ & Q & _). rewrite Q in *; congruence.
    + exists u. split; [congruence|auto].
  - right. split; [eapply NE; reflexivity|]. eauto 8.
  - match goal with Q : mg_parse_auth_header _ _ _ _ _ = _ |- _ => rename Q into HP end.
    destruct (header_user _ _ _ _ _ _ HP) as [[Md Us]|(Md & u' & Ua & Nn & Ln & Us)].
    + right. split.
      * intros a1 p q I F. apply INV in I as [I|I]; [|now apply NRES in I]. inversion I; subst. auto.
      * exists u. split; [congruence|auto].
    + left. destruct ok; [|destruct Gr as [G|[G|G]]; discriminate].
      exists a. split; [apply IN; now left|]. split; [split; auto; split; eauto|]. split; auto.
      rewrite Us in Cu. rewrite uid_cstr in Cu by auto. split; [congruence|discriminate].
  - destruct Gr as [G|[G|G]]; discriminate.
  - right. split; [eapply NE; reflexivity|]. exists u. split; auto.
    match goal with Q : mg_parse_auth_header _ _ _ _ _ = _ |- _ => apply header_uid in Q; [congruence|auto] end.
  - right. split; [eapply NE; reflexivity|]. eauto 8.
  - right. split; [eapply NE; reflexivity|]. eauto 8.
Qed.

(** ** C47 *)
Theorem notifications : forall t method uri body ct authz s e r, c_ev_endpoint C = true ->
  request t method uri body ct authz s = (e, r) ->
  exists mid tail, e = EvReqStart uri :: mid ++ tail /\ Forall (fun x => ~ is_start x /\ ~ is_end x) mid
    /\ ((tail = [EvReqEnd uri] /\ exists s', r = Ok (EST_ERR_NONE, s'))
        \/ (tail = [] /\ forall s', r <> Ok (EST_ERR_NONE, s'))).
Proof.
  intros t method uri body ct authz s e r HE H. apply request_paths in H.
  pose (P := fun x : event => ~ is_start x /\ ~ is_end x).
  assert (Pw : forall l, Forall is_write l -> Forall P l).
  { intros l F. eapply Forall_impl; [|exact F]. intros x (? & ? & ->). split; intros (? & Q); discriminate. }
  assert (Pm : forall err s0 w s1, est_send_http_error A keep (c_retry C) err s0 = (w, Ok (tt, s1)) -> Forall P w).
  { intros * W. destruct (writes_error A keep _ _ _ _ _ W) as [F _]. auto. }
  assert (Po : forall b x, P x -> Forall P (opt_ev b x)).
  { intros b x Hx. unfold opt_ev. destruct b; auto. }
  assert (Pq : forall o, Forall P (req_ev O C o body)) by (intro; apply Po; split; intros (? & Q); discriminate).
  assert (Pr : forall o rc, Forall P (rsp_ev O C o body rc)) by (intros; apply Po; split; intros (? & Q); discriminate).
  assert (Pa : forall p l, Forall (auth_ev t p) l -> Forall P l).
  { intros p l F. eapply Forall_impl; [|exact F]. intros x [(? & ? & ->)|[(? & ? & ->)|(? & ? & ? & ->)]]; split; intros (? & Q); discriminate. }
  assert (OP : forall o c p eo ro, run_op O C A attrs_parse attrs_add_pop attrs_check keep t authz c body p o s = (eo, ro) -> Forall P eo).
  { intros o c p eo ro Q.
    assert (EN : forall k, enroll_path O C A attrs_check t authz c body p k s eo ro -> Forall P eo).
    { intros k Q1.
      assert (AP : forall ea ra, auth_path O C A t authz p k body s ea ra -> Forall P ea) by (intros; eapply Pa, auth_events; eauto).
      assert (PR : forall mid r b, prepared O k body mid r b -> Forall P mid).
      { intros mid ? ? Q2. destruct k; cbn in Q2; [destruct Q2 as (-> & _); constructor..|].
        destruct Q2 as (? & ? & ? & ? & -> & _). constructor; [|constructor]. split; intros (? & Q3); discriminate. }
      assert (CK : forall r b s ec ro, checks_path O C A attrs_check t r b s ec ro -> Forall P ec).
      { intros * Q2. inversion Q2; subst; auto.
        - match goal with Q2 : attrs_crash _ _ _ _ _ |- _ => destruct Q2 as (_ & [(_ & _ & ->)|[(d & _ & _ & ->)|(d & -> & _)]]) end; try constructor; [|constructor].
          split; intros (? & Q3); discriminate.
        - match goal with Q2 : attrs_absent _ _ _ _ _ |- _ => destruct Q2 as [_ [(_ & _ & ->)|[(er & _ & _ & _ & ->)|(d & er & -> & _)]]] end; try constructor; [|constructor].
          split; intros (? & Q3); discriminate.
        - match goal with Q2 : attrs_present _ _ _ _ _ |- _ => destruct Q2 as [(_ & ->)|[(_ & _ & _ & ->)|[(_ & _ & _ & ->)|(_ & d & -> & _)]]] end;
            constructor; [|constructor]. split; intros (? & Q3); discriminate. }
      inversion Q1; subst; rewrite ?Forall_app; repeat split; eauto;
        try (constructor; [split; intros (? & Q3); discriminate|]); try constructor.
      match goal with Q : outcome _ _ _ _ _ _ _ _ _ _ |- _ => unfold outcome in Q end.
      destruct (_ && _).
      + destruct (is_http C).
        * destruct k;
          match goal with Q : _ = (w, Ok _) |- _ =>
            apply Pw; first [destruct (writes_200 A _ _ _ _ _ Q) as [F _]|destruct (writes_all A _ _ _ _ Q) as [F _]]; exact F end.
        * match goal with Q : w = [] /\ _ |- _ => destruct Q as (-> & _) end. constructor.
      + match goal with Q : w = [] /\ _ |- _ => destruct Q as (-> & _) end. constructor. }
    assert (BR : forall o, (exists ea rv v w, eo = ea ++ EvVoucher o body (t_peer t) rv v :: w /\ Forall (auth_ev t p) ea
      /\ authed t p ea /\ ~ cert_rejected t /\ Forall is_write w) \/ Forall (auth_ev t p) eo -> Forall P eo).
    { intros o' [(ea & rv & v & w & -> & F & _ & _ & G)|F]; [|eauto].
      apply Forall_app. split; [eauto|]. constructor; [|auto]. split; intros (? & Q3); discriminate. }
    destruct o; cbn [run_op] in Q; try (apply enroll_paths in Q; eauto; fail).
    - apply cacerts_events in Q as [F _]. eapply Forall_impl; [|exact F]. intros x [(? & ? & ->)|(? & ? & ->)]; split; intros (? & Q); discriminate.
    - apply csrattrs_events in Q as [F _]. eapply Forall_impl; [|exact F]. intros x [(? & ? & ->)|(? & ? & ->)]; split; intros (? & Q); discriminate.
    - apply brski_voucher_events in Q; eauto.
    - apply brski_status_events in Q; eauto.
    - apply brski_status_events in Q; eauto. }
  assert (Es : start_ev C uri = [EvReqStart uri] :> list event) by (unfold start_ev, opt_ev; now rewrite HE).
  assert (Ee : end_ev C uri = [EvReqEnd uri] :> list event) by (unfold end_ev, opt_ev; now rewrite HE).
  inversion H; subst; rewrite ?Es, ?Ee; cbn [Datatypes.app].
  - exists [], []. split; auto. split; [constructor|]. right. split; auto. discriminate.
  - exists w, []. rewrite app_nil_r. split; auto. split; [eauto|]. right. split; auto. intros s'' Q3. inversion Q3; subst.
    match goal with Q : refusal _ _ _ _ _ |- _ => destruct Q as [[Q _]|[[Q _]|[Q _]]] end; congruence.
  - exists w, [EvReqEnd uri]. split; auto. split; [eauto|]. left. eauto.
  - eexists _, []. rewrite app_nil_r. split; [reflexivity|]. split; [apply Forall_app; eauto|]. right. split; auto. discriminate.
  - exists (req_ev O C o body ++ e0 ++ rsp_ev O C o body rc), [EvReqEnd uri].
    split; [now rewrite <- !app_assoc|]. split; [rewrite !Forall_app; eauto|]. left. eauto.
  - eexists _, []. rewrite app_nil_r. split; [reflexivity|]. split; [rewrite !Forall_app; eauto 6|]. right. split; auto.
    intros s'' Q3. inversion Q3; subst. discriminate.
Qed.

(** ** One CA call per request *)
Theorem one_ca_call : forall t method uri body ct authz s e r pre x post,
  request t method uri body ct authz s = (e, r) -> e = pre ++ x :: post -> is_ca x ->
  Forall (fun y => ~ is_ca y) pre /\ Forall (fun y => ~ is_ca y) post.
Proof.
  intros t method uri body ct authz s e r pre x post H Eq (k & b & uid & peer & path & rv & crt & kt & ->).
  destruct (ca_call _ _ _ _ _ _ _ _ _ _ _ _ _ _ _ _ _ _ _ _ _ _ _ _ _ _ _ H Eq)
    as (o & c & ea & au & ro & s1 & mid & ec & rq & Pu & En & Kd & Mf & Ct & P10 & -> & -> & Au & Gr & Pr & Gc & Ps & Ap & U & _
        & s4 & s5 & w & err & tail & Ou & _ & _ & -> & Tl).
  assert (NP : forall l : list event, Forall (fun y => ~ privileged y) l -> Forall (fun y => ~ is_ca y) l).
  { intros l F. eapply Forall_impl; [|exact F]. intros y N (k1 & b1 & u1 & p1 & q1 & r1 & c1 & t1 & ->). apply N. left. eauto 10. }
  split; rewrite !Forall_app.
  - split; [apply NP, start_nonpriv|]. split; [apply NP, req_nonpriv|]. split; [eapply NP, auths_nonpriv, auth_events; eauto|].
    split; [eapply prepared_nonca; eauto|].
    destruct Ap as [(_ & ->)|[(_ & _ & _ & ->)|[(_ & _ & _ & ->)|(_ & d & -> & _)]]]; constructor; [|constructor].
    intros (? & ? & ? & ? & ? & ? & ? & ? & Q); discriminate.
  - split; [|split; [apply NP, rsp_nonpriv|]].
    + assert (F : Forall is_write w).
      { unfold outcome in Ou. destruct (_ && _).
        - destruct (is_http C).
          + clear -Ou; destruct k; first [destruct (writes_200 A _ _ _ _ _ Ou) as [F _]|destruct (writes_all A _ _ _ _ Ou) as [F _]]; exact F.
          + destruct Ou as (-> & _). constructor.
        - destruct Ou as (-> & _). constructor. }
      eapply Forall_impl; [|exact F]. intros y (? & ? & ->) (? & ? & ? & ? & ? & ? & ? & ? & Q); discriminate.
    + destruct Tl as [(_ & -> & _)|(_ & s' & W & _)]; [apply NP, end_nonpriv|]. eapply NP, error_nonpriv; eauto.
Qed.
End P.
