(** The course of an enrollment. *)
From Coq Require Import String ZArith List Bool Lia ZifyBool ZifyNat.
From Verif Require Import Base Spec.Base64 Spec.Http Spec.Client Spec.Multipart Spec.ClientCalls Model.CLib Model.Codec Model.EstErr Model.HttpServer Model.Uri Model.AuthHdr Model.ClientHttp Model.Multipart Model.Host Model.Client
  Proofs.EstErr Proofs.HttpParse Proofs.ClientHttp Proofs.Uri Proofs.ClientModes Proofs.ClientCalls Proofs.ClientHonest Proofs.ClientHistory Proofs.ClientShelf.
Import ListNotations.
Open Scope Z_scope.

Lemma arrives_fun : forall evs d d', arrives evs d -> arrives evs d' -> d = d'.
Proof.
  intros evs d d' (s & r & E & F & <-) (s' & r' & E' & F' & <-). subst evs. f_equal. revert s' E' F'. induction s as [|x s IH]; intros [|y s'] E' F'; cbn in E'; [reflexivity| | |].
  - injection E' as <- _. inversion_clear F'. contradiction.
  - injection E' as -> _. inversion_clear F. contradiction.
  - injection E' as <- E'. inversion_clear F. inversion_clear F'. f_equal. now apply IH.
Qed.
Lemma not_200_401 : forall d, starts (str "HTTP/1.1 200") d -> status401 d -> False.
Proof. intros d (t & ->) (u & E). discriminate. Qed.
Lemma tried_exchange : forall X op t c evs r, tried X op t c evs r -> exchange_of evs /\ forall q, In (ERequest q) evs -> tells c q.
Proof.
  intros X op t c evs r T. unfold exchange_of. inversion T; subst; (split; [eauto|intros q' I; cbn in I; intuition (try congruence)]);
  match goal with H : ERequest _ = ERequest _ |- _ => injection H as <-; assumption end.
Qed.
(** Only a challenge to an anonymous request leads to a second try. *)
Lemma tried_challenged : forall X op t c evs c1 sc, tried X op t c evs (Ok (EST_ERR_AUTH_FAIL, c1)) -> mode_scheme (mode c1) = Some sc ->
  exists q, evs = [ERequest q; EResponse (t_reads t)] /\ mode_scheme (mode c) = None /\ ~ credentials q /\ asks sc (t_reads t).
Proof.
  intros X op t c evs c1 sc T M. inversion T as [|e N Lo|q Tq W|q Tq W Bk|q e k Tq W N1 N2 Rm Hd Hr|q k cert Tq W Kg Km Rb Ln|q k key cert e Tq W Kg Km Kd L1 L2 Ee]; subst.
  - destruct Lo as [Lo _]. now elim Lo.
  - exists q. cbn in M. destruct Rm as [[[Lo _] _]|(_ & _ & [Rm|(Rm & sc' & M' & A)])].
    + now elim Lo.
    + rewrite Rm in M. discriminate.
    + rewrite M in M'. injection M' as <-. unfold tells in Tq. rewrite Rm in Tq. auto.
  - destruct (x_key_matches X key cert); discriminate.
Qed.
Theorem rounds_shape : forall X op c w evs r, rounds X op c w evs r ->
  (exists ex, evs = conn c :: ex /\ exchange_of ex)
  \/ (exists q1 r1 sc ex, evs = conn c :: ERequest q1 :: EResponse r1 :: conn c :: ex /\ exchange_of ex /\ ~ credentials q1 /\ In sc scheme_names /\ asks sc r1
      /\ forall q, In (ERequest q) ex -> offers sc q).
Proof.
  intros X op c w evs r R.
  assert (G : forall t evs1 c1 sc ex, tried X op t c evs1 (Ok (EST_ERR_AUTH_FAIL, c1)) -> mode_scheme (mode c1) = Some sc -> exchange_of ex -> (forall q, In (ERequest q) ex -> tells c1 q) ->
    exists q1 r1 sc ex', conn c :: evs1 ++ conn c :: ex = conn c :: ERequest q1 :: EResponse r1 :: conn c :: ex' /\ exchange_of ex' /\ ~ credentials q1 /\ In sc scheme_names /\ asks sc r1
      /\ forall q, In (ERequest q) ex' -> offers sc q).
  { intros t evs1 c1 sc ex T M Ex Tl. destruct (tried_challenged _ _ _ _ _ _ _ T M) as (q & -> & _ & Nc & As). exists q, (t_reads t), sc, ex. split; [reflexivity|]. split; [exact Ex|]. split; [exact Nc|].
    split; [now apply mode_scheme_in in M|]. split; [exact As|]. intros q' I. specialize (Tl q' I). unfold tells in Tl. rewrite M in Tl. exact Tl. }
  inversion R as [|e0 U|t evs0 e0 c1 Rc T1 A|t evs0 Rc T1|t evs0 c1 Rc T1 M F|t evs0 c1 e0 sc Rc T1 M U|t evs0 c1 sc Rc T1 M|t evs0 c1 sc t2 evs2 e0 c2 c3 Rc T1 M Rc2 T2 C|t evs0 c1 sc t2 evs2 Rc T1 M Rc2 T2]; subst.
  - left. exists []. split; [reflexivity|now left].
  - left. exists []. split; [reflexivity|now left].
  - left. exists evs0. split; [reflexivity|]. eapply tried_exchange; eauto.
  - left. exists evs0. split; [reflexivity|]. eapply tried_exchange; eauto.
  - left. exists evs0. split; [reflexivity|]. eapply tried_exchange; eauto.
  - right. eapply G; eauto; [now left|contradiction].
  - right. eapply G; eauto; [now left|contradiction].
  - right. destruct (tried_exchange _ _ _ _ _ _ T2). eapply G; eauto.
  - right. destruct (tried_exchange _ _ _ _ _ _ T2). eapply G; eauto.
Qed.
(** A 401 to a request with credentials. *)
Lemma tried_401 : forall X op t c evs e c1 d, tried X op t c evs (Ok (e, c1)) -> In (EResponse (t_reads t)) evs -> arrives (t_reads t) d -> len d < EST_CA_MAX -> status401 d ->
  e = EST_ERR_AUTH_FAIL \/ (is_keygen op = true /\ e = EST_ERR_MULTIPART_PARSE).
Proof.
  intros X op t c evs e c1 d T I A L S. inversion T as [|e0 N Lo|q Tq W|q Tq W Bk|q e0 k Tq W N1 N2 Rm Hd Hr|q k cert Tq W Kg Km Rb Ln|q k key cert e0 Tq W Kg Km Kd L1 L2 Ee]; subst.
  - destruct I.
  - destruct I as [I|[]]. discriminate.
  - eapply Hd; eauto.
  - exfalso. destruct Rb as (d' & h & ct & cl & A' & _ & S' & _). pose proof (arrives_fun _ _ _ A A') as ->. eapply not_200_401; eauto.
  - exfalso. destruct Kd as [(d' & A' & S') _]. pose proof (arrives_fun _ _ _ A A') as ->. eapply not_200_401; eauto.
Qed.
Lemma split_end : forall (v v1 v2 : event) b1 b2, b1 ++ v :: b2 = [v1; v2] -> (b1 = [] /\ v = v1 /\ b2 = [v2]) \/ (b1 = [v1] /\ v = v2 /\ b2 = []).
Proof. intros v v1 v2 [|x [|y b1]] b2 E; cbn in E; [injection E as -> ->; auto|injection E as -> -> ->; auto|]. injection E as -> -> E. destruct b1; discriminate. Qed.
Lemma responded : forall X op t c evs r q n b1 b2, tried X op t c evs r -> evs = b1 ++ ERequest q :: EResponse n :: b2 -> b1 = [] /\ b2 = [] /\ n = t_reads t /\ tells c q.
Proof.
  intros X op t c evs r q n b1 b2 T E. destruct (tried_exchange _ _ _ _ _ _ T) as [Ex Tl].
  assert (Q : evs = [ERequest q; EResponse n] /\ b1 = [] /\ b2 = []).
  { destruct Ex as [->|[(q' & ->)|(q' & n' & ->)]].
    - destruct b1; discriminate.
    - destruct b1 as [|? [|? ?]]; discriminate.
    - symmetry in E. apply split_end in E as [(-> & E & E')|(_ & E & _)]; [injection E as ->; injection E' as -> ->; auto|discriminate]. }
  destruct Q as (-> & -> & ->). repeat split.
  - inversion T; reflexivity.
  - apply Tl. now left.
Qed.
Lemma offers_credentials : forall sc q, offers sc q -> credentials q.
Proof.
  intros sc q (l & I & t & ->). exists (str "Authorization: " ++ sc ++ [32] ++ t). split; [rewrite <- !app_assoc in I; exact I|]. exists (str " " ++ sc ++ [32] ++ t). reflexivity.
Qed.
Theorem rounds_401 : forall X op c w evs e n c' b1 q r b2 d, rounds X op c w evs (Ok (e, n, c')) -> evs = b1 ++ ERequest q :: EResponse r :: b2 -> credentials q ->
  arrives r d -> len d < EST_CA_MAX -> status401 d -> b2 = [] /\ (e = EST_ERR_AUTH_FAIL \/ (is_keygen op = true /\ e = EST_ERR_MULTIPART_PARSE)).
Proof.
  intros X op c w evs e n c' b1 q r b2 d R E Cq A L S.
  assert (G : forall t evs1 c1 sc b1 b2 tl, tried X op t c evs1 (Ok (EST_ERR_AUTH_FAIL, c1)) -> mode_scheme (mode c1) = Some sc ->
    conn c :: evs1 ++ tl = b1 ++ ERequest q :: EResponse r :: b2 -> exists b1', tl = b1' ++ ERequest q :: EResponse r :: b2).
  { intros t evs1 c1 sc b3 b4 tl T M Eq. destruct (tried_challenged _ _ _ _ _ _ _ T M) as (q' & -> & _ & Nc & _).
    destruct b3 as [|x [|y [|z b3]]]; cbn in Eq; try discriminate.
    - exfalso. injection Eq as _ <- _. contradiction.
    - injection Eq as _ _ _ ->. exists b3. reflexivity. }
  inversion R as [|e0 U|t evs0 e0 c1 Rc T1 Am|t evs0 Rc T1|t evs0 c1 Rc T1 M F|t evs0 c1 e0 sc Rc T1 M U|t evs0 c1 sc Rc T1 M|t evs0 c1 sc t2 evs2 e0 c2 c3 Rc T1 M Rc2 T2 C|t evs0 c1 sc t2 evs2 Rc T1 M Rc2 T2]; subst.
  - destruct b1 as [|? [|? ?]]; discriminate.
  - match goal with H : _ = b1 ++ _ |- _ => rename H into Eq end. destruct b1 as [|x b1]; [discriminate|]. injection Eq as <- Eq.
    pose proof (tried_exchange _ _ _ _ _ _ T1) as Ex. rewrite Eq in *. destruct (responded _ _ _ _ _ _ q r b1 b2 T1 eq_refl) as (-> & -> & -> & Tq). split; [reflexivity|].
    eapply tried_401; eauto. right. now left.
  - match goal with H : _ = b1 ++ _ |- _ => rename H into Eq end. rewrite <- (app_nil_r evs0) in Eq. destruct (G t evs0 c' (str "Digest") b1 b2 [] T1) as (b & B); [rewrite M; reflexivity|exact Eq|]. destruct b; discriminate.
  - match goal with H : _ = b1 ++ _ |- _ => rename H into Eq end. destruct (G t evs0 c' sc b1 b2 [conn c] T1 M Eq) as (b & B). destruct b as [|? [|? ?]]; discriminate.
  - match goal with H : _ = b1 ++ _ |- _ => rename H into Eq end. destruct (G t evs0 c1 sc b1 b2 (conn c :: evs2) T1 M Eq) as (b & B). destruct b as [|x b]; [discriminate|]. injection B as <- B.
    destruct (responded _ _ _ _ _ _ q r b b2 T2 B) as (-> & -> & -> & Tq). split; [reflexivity|]. eapply tried_401; eauto. rewrite B. right. now left.
Qed.
(** An authentication failure is the server's. *)
Lemma tried_auth_fail_401 : forall X op t c evs c1, tried X op t c evs (Ok (EST_ERR_AUTH_FAIL, c1)) -> exists q d, evs = [ERequest q; EResponse (t_reads t)] /\ arrives (t_reads t) d /\ status401 d.
Proof.
  intros X op t c evs c1 T. inversion T as [|e0 N Lo|q Tq W|q Tq W Bk|q e0 k Tq W N1 N2 Rm Hd Hr|q k cert Tq W Kg Km Rb Ln|q k key cert e0 Tq W Kg Km Kd L1 L2 Ee]; subst.
  - destruct Lo as [Lo _]. now elim Lo.
  - destruct Rm as [[[Lo _] _]|(_ & (d & A & S) & _)]; [now elim Lo|]. eauto.
  - destruct (x_key_matches X key cert); discriminate.
Qed.
Theorem rounds_auth_fail : forall X op c w evs n c', rounds X op c w evs (Ok (EST_ERR_AUTH_FAIL, n, c')) -> exists r d, last_response evs r /\ arrives r d /\ status401 d.
Proof.
  intros X op c w evs n c' R. inversion R as [|e0 U|t evs0 e0 c1 Rc T1 Am|t evs0 Rc T1|t evs0 c1 Rc T1 M F|t evs0 c1 e0 sc Rc T1 M U|t evs0 c1 sc Rc T1 M|t evs0 c1 sc t2 evs2 e0 c2 c3 Rc T1 M Rc2 T2 C|t evs0 c1 sc t2 evs2 Rc T1 M Rc2 T2]; subst.
  - exfalso. repeat (destruct U as [U|U]; [discriminate|]). destruct U.
  - apply tried_auth_fail_401 in T1 as (q & d & -> & A & S). exists (t_reads t), d. split; [exists [conn c; ERequest q]; reflexivity|auto].
  - exfalso. repeat (destruct U as [U|U]; [discriminate|]). destruct U.
  - apply tried_auth_fail_401 in T2 as (q & d & -> & A & S). exists (t_reads t2), d. split; [exists (conn c :: evs0 ++ [conn c; ERequest q]); cbn; rewrite <- app_assoc; reflexivity|auto].
Qed.
(** A challenge that is understood is answered. *)
Theorem rounds_answered : forall X op c w evs r q r1 rest k sc m, rounds X op c w evs r -> is_keygen op = false ->
  evs = conn c :: ERequest q :: EResponse r1 :: rest -> ~ credentials q ->
  (forall k0, mode_scheme (k_mode k0) = None -> exists k1, est_io_get_response r1 op k0 = Ok (EST_ERR_AUTH_FAIL, Untouched, k1) /\ k_mode k1 = m) ->
  mode_scheme m = Some sc -> k = conn c ->
  (exists ex, rest = k :: ex) \/ (m = AUTH_DIGEST /\ x_fips X = true).
Proof.
  intros X op c w evs r q r1 rest k sc m R Kg E Nc Ch Ms ->.
  assert (G : forall t evs1 r0, tried X op t c evs1 r0 -> evs1 = ERequest q :: EResponse r1 :: rest -> rest = [] /\ exists c1, r0 = Ok (EST_ERR_AUTH_FAIL, c1) /\ mode c1 = m).
  { intros t evs1 r0 T Eq. assert (Tl : tells c q) by (apply (tried_exchange _ _ _ _ _ _ T); rewrite Eq; now left).
    assert (Mc : mode_scheme (mode c) = None).
    { unfold tells in Tl. destruct (mode_scheme (mode c)) as [sc0|]; [|reflexivity]. elim Nc. eapply offers_credentials; eauto. }
    destruct (responded _ _ _ _ _ _ q r1 [] rest T Eq) as (_ & -> & -> & _). split; [reflexivity|]. subst evs1. destruct (Ch (set_status 0 (c_http c)) Mc) as (k1 & Q & Mk). clear Ch.
    inversion T as [|e0 N Lo|q0 Tq W|q0 Tq W Bk|q0 e0 k0 Tq W N1 N2 Rm Hd Hr|q0 k0 cert Tq W Kg' Km Rb Ln|q0 k0 key cert e0 Tq W Kg' Km Kd L1 L2 Ee]; subst; try congruence.
    - rewrite (Bk Kg) in Q. discriminate.
    - destruct (Hr Kg) as (rv & d & Gr & Hv). rewrite Q in Gr. injection Gr as <- <- <-. destruct Hv as [Hv|<-]; [discriminate|]. exists (put_http k1 c). split; [reflexivity|reflexivity].
    - exfalso. destruct Rb as (d' & h & ct & cl & A' & _ & S' & _). apply response_mode in Q. destruct Q as [[[Q _] _]|(_ & (d & A & S) & _)]; [now elim Q|].
      pose proof (arrives_fun _ _ _ A A') as ->. eapply not_200_401; eauto. }
  inversion R as [|e0 U|t evs0 e0 c1 Rc T1 Am|t evs0 Rc T1|t evs0 c1 Rc T1 M F|t evs0 c1 e0 sc0 Rc T1 M U|t evs0 c1 sc0 Rc T1 M|t evs0 c1 sc0 t2 evs2 e0 c2 c3 Rc T1 M Rc2 T2 C|t evs0 c1 sc0 t2 evs2 Rc T1 M Rc2 T2]; subst;
    match goal with H : _ = _ :: ERequest q :: _ |- _ => rename H into Eq end; try discriminate.
  - injection Eq as Eq. destruct (G _ _ _ T1 Eq) as (_ & c2 & Q & Mm). injection Q as -> ->. exfalso. specialize (Am eq_refl). congruence.
  - injection Eq as Eq. destruct (G _ _ _ T1 Eq) as (_ & c2 & Q & Mm). discriminate.
  - injection Eq as Eq. destruct (G _ _ _ T1 Eq) as (_ & c2 & Q & Mm). injection Q as <-. right. split; congruence.
  - injection Eq as Eq. destruct (tried_challenged _ _ _ _ _ _ _ T1 M) as (q' & -> & _). injection Eq as _ _ <-. left. eauto.
  - injection Eq as Eq. destruct (tried_challenged _ _ _ _ _ _ _ T1 M) as (q' & -> & _). injection Eq as _ _ <-. left. eauto.
  - injection Eq as Eq. destruct (tried_challenged _ _ _ _ _ _ _ T1 M) as (q' & -> & _). injection Eq as _ _ <-. left. eauto.
  - injection Eq as Eq. destruct (tried_challenged _ _ _ _ _ _ _ T1 M) as (q' & -> & _). injection Eq as _ _ <-. left. eauto.
Qed.
(** ** After an enrollment *)
Lemma enroll_afresh : forall X x c w evs e o s' r, lawful X -> proper x -> fit c -> resets x = true -> perform X x {| s_c := c; s_env := w |} = (evs, Ok (e, o, s')) ->
  last_response evs r -> e <> EST_ERR_BAD_MODE -> mode_scheme (mode (s_c s')) = None.
Proof.
  intros X x c w evs e o s' r L P F Rs H (b & Lr) Ne.
  assert (E : enrollment x) by (destruct x; try discriminate; exact I).
  destruct (enrollment_ends X x c w L P F E) as (evs' & r' & w' & Ep & D). rewrite Ep in H. destruct r' as [[e1 c1]|]; [|discriminate]. cbn [landed] in H. injection H as <- <- <- <-. cbn [s_c].
  destruct D as [(-> & _)|(_ & r0 & R & Q)]; [destruct b; discriminate|]. destruct r0 as [[[e2 n2] c2]|]; [|discriminate]. cbn [finish] in Q. rewrite Rs, andb_true_r in Q. injection Q as -> ->.
  assert (N : n2 = true).
  { inversion R as [|e0 U|t evs0 e0 c3 Rc T1 Am|t evs0 Rc T1|t evs0 c3 Rc T1 M Fi|t evs0 c3 e0 sc Rc T1 M U|t evs0 c3 sc Rc T1 M|t evs0 c3 sc t2 evs2 e0 c4 c5 Rc T1 M Rc2 T2 C|t evs0 c3 sc t2 evs2 Rc T1 M Rc2 T2]; subst; auto.
    - exfalso. destruct b as [|? [|? ?]]; discriminate.
    - exfalso. match goal with H : _ = b ++ _ |- _ => rename H into Eq end. change (conn c :: evs0 ++ [conn c]) with ((conn c :: evs0) ++ [conn c]) in Eq. apply app_inj_tail in Eq as [_ Eq]. discriminate. }
  subst n2. reflexivity.
Qed.
Lemma history_owes : forall X s0 log s hint tr, lawful X -> fit (s_c s0) -> owes hint tr (s_c s0) -> history X s0 log s -> calls_proper log ->
  owes (hint \/ hinted log) (tr ++ events_of log) (s_c s).
Proof.
  intros X s0 log s hint tr L F0 O0 H. induction H as [|log s1 x evs e o s2 H IH E]; intro P.
  - cbn. rewrite app_nil_r. eapply owes_mono; [|exact O0]. now left.
  - apply Forall_app in P as [P1 P2]. specialize (IH P1). apply Forall_inv in P2 as Px. cbn [e_call] in *. rewrite events_snoc. cbn [e_events].
    pose proof (history_fit X log s1 s0 L P1 F0 H) as F.
    assert (D : x = BasicHint \/ x <> BasicHint) by (destruct x; auto; right; discriminate). destruct D as [->|N].
    + cbn in E. injection E as <- <- <- <-. intros sc Hs. cbn in Hs. injection Hs as <-. left. split; [reflexivity|]. right. apply hinted_snoc. now right.
    + pose proof (does_spec _ _ _ _ (perform_fair X x L Px N) _ _ _ _ E) as Q. destruct (Q F) as [F' G]. rewrite app_assoc.
      destruct (G _ _ IH) as [_ O']. eapply owes_mono; [|exact O']. intros [A|A]; [now left|]. right. apply hinted_snoc. now left.
Qed.
Theorem credentials_since : forall X s0 log s x evs r q b1 b2, lawful X -> fit (s_c s0) -> mode_scheme (mode (s_c s0)) = None -> history X s0 log s -> calls_proper log -> proper x ->
  perform X x s = (evs, r) -> evs = b1 ++ ERequest q :: b2 -> credentials q ->
  exists sc, In sc scheme_names /\ offers sc q /\ ((sc = str "Basic" /\ hinted log) \/ exists r', In (EResponse r') (events_of log ++ b1) /\ asks sc r').
Proof.
  intros X s0 log s x evs r q b1 b2 L F0 M0 H P Px E Ev Cq.
  assert (O0 : owes False [] (s_c s0)) by (intros sc Hs; rewrite M0 in Hs; discriminate).
  pose proof (history_owes X s0 log s False [] L F0 O0 H P) as O. pose proof (history_fit X log s s0 L P F0 H) as F. cbn [Datatypes.app] in O.
  assert (D : x = BasicHint \/ x <> BasicHint) by (destruct x; auto; right; discriminate). destruct D as [->|N].
  { cbn in E. injection E as <- _. destruct b1; discriminate. }
  pose proof (perform_fair X x L Px N (s_c s) (s_env s)) as D. replace {| s_c := s_c s; s_env := s_env s |} with s in D by (destruct s; reflexivity). rewrite E in D.
  assert (Pd : paid (False \/ hinted log) (events_of log) evs) by (destruct r as [[y s']|]; [now apply D|now apply D]).
  destruct (Pd b1 q b2 Ev Cq) as (sc & I & Of & [[-> [[]|Hh]]|J]); eauto 10.
Qed.
