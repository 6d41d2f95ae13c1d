(** Proof of possession in the client's certificate requests. *)
From Coq Require Import String ZArith List Bool Lia ZifyBool ZifyNat.
From Verif Require Import Base Spec.Http Spec.Base64 Spec.ClientCalls Spec.Possession Model.CLib Model.EstErr Model.Codec Model.Uri Model.AuthHdr Model.HttpServer Model.ClientHttp Model.Multipart Model.Host Model.Client
  Proofs.EstErr Proofs.Codec Proofs.AuthHdr Proofs.ClientModes Proofs.ClientCalls Proofs.RelayCourse.
From Verif Require Spec.Relay Proofs.RelayResult Proofs.RelayClaims.
Import ListNotations.
Open Scope Z_scope.

Definition alike (c c' : client) : Prop :=
  c_pop c' = c_pop c /\ c_force c' = c_force c /\ c_path c' = c_path c /\ c_server c' = c_server c /\ c_port c' = c_port c.
Lemma alike_refl : forall c, alike c c.
Proof. intro c. repeat split. Qed.
Lemma alike_trans : forall a b c, alike a b -> alike b c -> alike a c.
Proof. unfold alike. intros a b c (A1 & A2 & A3 & A4 & A5) (B1 & B2 & B3 & B4 & B5). repeat split; congruence. Qed.

(** What an attempt on a connection says there. *)
Definition quiet (Q : bytes -> Prop) (evs : list event) : Prop :=
  forall ev, In ev evs -> match ev with EConnect _ _ _ => False | ERequest q => Q q | EResponse _ => True end.
Definition behaves (Q : session -> client -> bytes -> Prop) (try : session -> M est_error) : Prop :=
  forall t s evs r, try t s = (evs, r) -> quiet (Q t (s_c s)) evs /\ forall e s', r = Ok (e, s') -> alike (s_c s) (s_c s') /\ s_env s' = s_env s.

Lemma app_split : forall {A} (a b e1 e2 : list A) x, a ++ b = e1 ++ x :: e2 ->
  (exists e2', a = e1 ++ x :: e2') \/ (exists e1', e1 = a ++ e1' /\ b = e1' ++ x :: e2).
Proof.
  induction a as [|y a IH]; intros b e1 e2 x E; [right; exists e1; auto|]. destruct e1 as [|z e1]; cbn in E; injection E as -> E.
  - left. exists a. reflexivity.
  - destruct (IH _ _ _ _ E) as [[e2' ->]|(e1' & -> & ->)]; [left; now exists e2'|right; now exists e1'].
Qed.
Lemma quiet_connects : forall Q evs, quiet Q evs -> connects evs = 0%nat.
Proof.
  intros Q evs H. unfold connects. induction evs as [|e evs IH]; [reflexivity|]. pose proof (H e (or_introl eq_refl)) as He. cbn [filter]. destruct e; [contradiction| |]; apply IH; intros ev I; apply H; now right.
Qed.
Lemma connects_app : forall a b, connects (a ++ b) = (connects a + connects b)%nat.
Proof. intros a b. unfold connects. now rewrite filter_app, app_length. Qed.
Lemma quiet_part : forall Q a b, quiet Q (a ++ b) -> quiet Q a.
Proof. intros Q a b H ev I. apply H, in_or_app. now left. Qed.

Definition sent_on (Q : session -> client -> bytes -> Prop) (c : client) (w : list attempt) (evs : list event) : Prop :=
  forall e1 q e2, evs = e1 ++ ERequest q :: e2 -> exists t, nth_error w (connects e1 - 1) = Some (Tls t) /\ Q t c q.
Lemma sent_nil : forall Q c w, sent_on Q c w [].
Proof. intros Q c w e1 q e2 E. destruct e1; discriminate E. Qed.
Lemma sent_conn : forall Q c w x, sent_on Q c w [conn x].
Proof. intros Q c w x e1 q e2 E. destruct e1 as [|? e1]; [discriminate E|]. injection E as _ E. destruct e1; discriminate E. Qed.
Lemma sent_first : forall Q c w t x evs, hd_error w = Some (Tls t) -> quiet (Q t c) evs -> sent_on Q c w (conn x :: evs).
Proof.
  intros Q c w t x evs H K e1 q e2 E. destruct e1 as [|y e1]; [discriminate E|]. injection E as <- ->. exists t.
  assert (Z : connects e1 = 0%nat) by (eapply quiet_connects, quiet_part, K).
  change (connects (conn x :: e1)) with (S (connects e1)). rewrite Z. destruct w as [|a w]; [discriminate H|]. cbn in H. injection H as ->. split; [reflexivity|].
  apply (K (ERequest q)). apply in_or_app. right. now left.
Qed.
Lemma sent_second : forall (Q : session -> client -> bytes -> Prop) c w t x y evs1 evs2, (forall t c c' q, alike c c' -> Q t c' q -> Q t c q) -> sent_on Q c w (conn x :: evs1) -> quiet (fun _ => True) evs1 ->
  forall c', alike c c' -> hd_error (tl w) = Some (Tls t) -> quiet (Q t c') evs2 -> sent_on Q c w (conn x :: evs1 ++ conn y :: evs2).
Proof.
  intros Q c w t x y evs1 evs2 R H K1 c' A Hw K2 e1 q e2 E. change (conn x :: evs1 ++ conn y :: evs2) with ((conn x :: evs1) ++ conn y :: evs2) in E.
  apply app_split in E as [[e2' E]|(e1' & -> & E)]; [exact (H _ _ _ E)|]. destruct e1' as [|z e1']; [discriminate E|]. injection E as <- ->. exists t.
  rewrite connects_app. change (connects (conn x :: evs1)) with (S (connects evs1)). change (connects (conn y :: e1')) with (S (connects e1')).
  rewrite (quiet_connects _ _ K1), (quiet_connects _ _ (quiet_part _ _ _ K2)). destruct w as [|a [|b w]]; try discriminate Hw. cbn in Hw. injection Hw as ->. split; [reflexivity|].
  apply (R t c c' q A). apply (K2 (ERequest q)). apply in_or_app. right. now left.
Qed.
Lemma quiet_any : forall Q evs, quiet Q evs -> quiet (fun _ => True) evs.
Proof. intros Q evs H ev I. specialize (H ev I). destruct ev; auto. Qed.

Lemma twice_sends : forall (Q : session -> client -> bytes -> Prop) X tidy try, behaves Q try -> (forall t c c' q, alike c c' -> Q t c' q -> Q t c q) ->
  forall s evs r, twice X tidy try s = (evs, r) -> sent_on Q (s_c s) (s_env s) evs.
Proof.
  intros Q X tidy try B R [c w] evs r E. cbn [s_c s_env]. unfold twice in E. unfold mbind at 1 in E. destruct (connect_run X c w) as (r0 & Ec & H). rewrite Ec in E.
  destruct r0 as [[[e|t] s]|]; [destruct H as [_ ->]|destruct H as [[Hw _] ->]|injection E as <- _; apply sent_conn].
  { cbn in E. injection E as <- _. apply sent_conn. }
  unfold mbind at 1 in E. destruct (try t {| s_c := c; s_env := tl w |}) as [ev1 r1] eqn:E1. destruct (B _ _ _ _ E1) as [K1 A1]. cbn [s_c s_env] in *.
  destruct r1 as [[e1 [c1 w1]]|]; [|injection E as <- _; now apply (sent_first Q c w t)]. destruct (A1 _ _ eq_refl) as [Al Ew]. cbn [s_c s_env] in *. subst w1.
  pose proof (sent_first Q c w t c ev1 Hw K1) as S1.
  unfold mbind at 1, get in E. cbn [s_c] in E.
  destruct (err_eqb e1 EST_ERR_AUTH_FAIL && _); [|cbn in E; rewrite !app_nil_r in E; injection E as <- _; exact S1].
  destruct (mode_eqb _ _ && x_fips X); [cbn in E; rewrite !app_nil_r in E; injection E as <- _; exact S1|].
  unfold mbind at 1 in E. destruct (connect_run X c1 (tl w)) as (r2 & Ec2 & H2). rewrite Ec2 in E.
  assert (S2 : sent_on Q c w (conn c :: ev1 ++ [conn c1])).
  { intros a q b Eq. change (conn c :: ev1 ++ [conn c1]) with ((conn c :: ev1) ++ [conn c1]) in Eq. apply app_split in Eq as [[b' Eq]|(a' & -> & Eq)]; [exact (S1 _ _ _ Eq)|]. destruct a' as [|z a']; [discriminate Eq|]. injection Eq as _ Eq. destruct a'; discriminate Eq. }
  destruct r2 as [[[e2|t2] s2]|]; [destruct H2 as [_ ->]|destruct H2 as [[Hw2 _] ->]|].
  { cbn in E. injection E as <- _. exact S2. }
  2: { cbn in E. injection E as <- _. exact S2. }
  unfold mbind at 1 in E. destruct (try t2 {| s_c := c1; s_env := tl (tl w) |}) as [ev2 r2] eqn:E2. destruct (B _ _ _ _ E2) as [K2 _]. cbn [s_c s_env] in *.
  pose proof (sent_second Q c w t2 c c1 ev1 ev2 R S1 (quiet_any _ _ K1) c1 Al Hw2 K2) as S3.
  destruct r2 as [[e3 s3]|]; [|cbn in E; injection E as <- _; exact S3].
  destruct (tidy && negb (err_eqb e3 EST_ERR_NONE)); cbn in E; rewrite !app_nil_r in E; injection E as <- _; exact S3.
Qed.

(** ** The attempts *)
Lemma req_quiet : forall X op der t s evs r, est_client_enroll_req X op der t s = (evs, r) ->
  quiet (fun q => built X op (bio_b64_text der true) (s_c s) t q) evs /\ forall e s', r = Ok (e, s') -> alike (s_c s) (s_c s') /\ s_env s' = s_env s.
Proof.
  intros X op der t [c w] evs r E. cbn [s_c s_env]. unfold est_client_enroll_req in E. unfold mbind at 1 in E. rewrite answer_run in E.
  set (body := bio_b64_text der true) in *. clearbody body.
  assert (Nil : quiet (fun q => built X op body c t q) []) by (intros ev []).
  destruct (build_header X op c t (len body)) as [h|] eqn:Bh; [|injection E as <- <-; split; [exact Nil|discriminate]].
  destruct (len h =? 0) eqn:Lh; [cbn in E; injection E as <- <-; split; [exact Nil|intros e s' H; injection H as _ <-; split; [apply alike_refl|reflexivity]]|].
  destruct (complete h body) as [q|] eqn:Cq; [|injection E as <- <-; split; [exact Nil|discriminate]].
  assert (Bq : built X op body c t q) by (exists h; auto).
  destruct (t_write t).
  - assert (K : quiet (fun q => built X op body c t q) [ERequest q; EResponse (t_reads t)]) by (intros ev [<-|[<-|[]]]; [exact Bq|exact I]).
    destruct (answer X op (t_reads t) (set_status 0 (c_http c))) as [[[[e key] cert] k]|]; [|injection E as <- <-; split; [exact K|discriminate]].
    destruct (negb (err_eqb e EST_ERR_NONE)); [cbn in E; injection E as <- <-; split; [exact K|intros e' s' H; injection H as _ <-; repeat split]|].
    destruct (is_keygen op); [destruct (x_key_matches X key cert)|]; cbn in E; injection E as <- <-; (split; [exact K|intros e' s' H; injection H as _ <-; repeat split]).
  - cbn in E. injection E as <- <-. split; [intros ev [<-|[]]; exact Bq|intros e' s' H; injection H as _ <-; repeat split].
Qed.

(** The challenge password an attempt uses. *)
Definition password (c : client) (t : session) (cp : option bytes) : Prop :=
  if c_pop c || c_force c then cp = Some (b64_encode (tls_unique t)) else cp = None.

Lemma uid_text : forall t blk n s, identified t -> tls_uid t = Ok (Some (blk, n)) -> cstr blk = Ok s -> s = b64_encode (tls_unique t).
Proof.
  intros t blk n s [Ne Hb] E Cs. unfold tls_uid in E.
  destruct (uid_value (t_own t) (t_peer t) (t_reused t) (t_tls13 t) true (tls_unique t)) as [V1 V2]; [unfold tls_unique; destruct (t_reused t); reflexivity|exact Ne|exact Hb|].
  destruct (Z_le_gt_dec (len (tls_unique t)) (if t_tls13 t then 48 else 12)) as [L|L]; [|rewrite (V2 ltac:(lia)) in E; discriminate E].
  specialize (V1 L). rewrite V1 in E.
  assert (Eb : blk = b64_encode (tls_unique t) ++ repeat 0 (Z.to_nat ((if t_tls13 t then 66 else 18) - len (b64_encode (tls_unique t))))) by congruence. clear E V1 V2.
  rewrite Eb, cstr_pad in Cs; [now injection Cs as <-|now apply b64_no_nul|].
  rewrite b64_encode_len. pose proof (len_nonneg _ (tls_unique t)). destruct (t_tls13 t); cbv iota in L; cbv iota.
  - assert ((len (tls_unique t) + 2) / 3 < 17) by (apply Z.div_lt_upper_bound; lia). lia.
  - assert ((len (tls_unique t) + 2) / 3 < 5) by (apply Z.div_lt_upper_bound; lia). lia.
Qed.

Definition proves (X : ext) (x : call) (t : session) (c : client) (q : bytes) : Prop :=
  fit c -> identified t -> exists op der cp, password c t cp /\ makes X x cp op der /\ Spec.Relay.forwards op (c_path c) (bio_b64_text der true) q.
Lemma proves_alike : forall X x t c c' q, alike c c' -> proves X x t c' q -> proves X x t c q.
Proof.
  intros X x t c c' q (A1 & A2 & A3 & A4 & A5) H F It. unfold proves, password in *. rewrite A1, A2, A3 in H. apply H; [|exact It].
  unfold fit in *. rewrite A3, A4, A5. exact F.
Qed.
Lemma built_forwards : forall X op body c t q, enrolls op -> fit c -> built X op body c t q -> Spec.Relay.forwards op (c_path c) body q.
Proof.
  intros X op body c t q Eo F B. destruct (RelayClaims.built_text _ _ _ _ _ _ Eo F B) as (auth & tail & -> & Ha & Ht & L).
  replace (op_uri_name op) with (Spec.Relay.uri_name op) by (destruct op; reflexivity). apply RelayResult.forwards_text; [|destruct (mode_scheme _); [right|now left]|exact Ht].
  - unfold enrolls in Eo. destruct op; try reflexivity; intuition discriminate.
  - destruct Ha as (x & ->). unfold OFFER. rewrite <- app_assoc. eexists. reflexivity.
Qed.
Lemma stop_here : forall (Q : bytes -> Prop) s e evs r, ([], Ok (e, s)) = (evs, r) -> quiet Q evs /\ forall e' s', r = @Ok (est_error * st) (e', s') -> alike (s_c s) (s_c s') /\ s_env s' = s_env s.
Proof. intros Q s e evs r E. injection E as <- <-. split; [intros ev []|]. intros e' s' H. injection H as _ <-. split; [apply alike_refl|reflexivity]. Qed.
Lemma stuck_here : forall (Q : bytes -> Prop) s evs r, ([], UB) = (evs, r) -> quiet Q evs /\ forall e' s', r = @Ok (est_error * st) (e', s') -> alike (s_c s) (s_c s') /\ s_env s' = s_env s.
Proof. intros Q s evs r E. injection E as <- <-. split; [intros ev []|discriminate]. Qed.

Lemma req_proves : forall X op x der t s evs r cp, enrolls op -> (identified t -> password (s_c s) t cp /\ makes X x cp op der) ->
  est_client_enroll_req X op der t s = (evs, r) ->
  quiet (proves X x t (s_c s)) evs /\ forall e s', r = Ok (e, s') -> alike (s_c s) (s_c s') /\ s_env s' = s_env s.
Proof.
  intros X op x der t s evs r cp Eo M E. destruct (req_quiet _ _ _ _ _ _ _ E) as [K A]. split; [|exact A].
  intros ev I. specialize (K ev I). destruct ev as [| q |]; try exact K. intros F It. destruct (M It) as [Pw Mk]. exists op, der, cp. split; [exact Pw|]. split; [exact Mk|].
  exact (built_forwards _ _ _ _ _ _ Eo F K).
Qed.
Lemma nil_pair : forall (p : list event * res (est_error * st)) evs r, (let '(e2, r0) := p in ([] ++ e2, r0)) = (evs, r) -> p = (evs, r).
Proof. intros [e2 r0] evs r H. exact H. Qed.
Lemma cn_behaves : forall X op x cn k, enrolls op -> (forall cp der, x_make_csr X k cn cp = (EST_ERR_NONE, der) -> makes X x cp op der) ->
  behaves (proves X x) (est_client_enroll_cn X op cn k).
Proof.
  intros X op x cn k Eo M t s evs r E. unfold est_client_enroll_cn in E. unfold mbind at 1, get in E. apply nil_pair in E.
  unfold mbind at 1, lift in E. destruct (tls_uid t) as [[[blk n]|]|] eqn:U; cbn [bind] in E; [| |exact (stuck_here _ s _ _ E)].
  2: { cbn in E. exact (stop_here _ s _ _ _ E). }
  apply nil_pair in E. unfold mbind at 1 in E. destruct (cstr blk) as [id|] eqn:Cs; cbn [bind] in E; [|exact (stuck_here _ s _ _ E)]. apply nil_pair in E. cbv zeta in E.
  destruct (x_make_csr X k cn (if wants_pop (s_c s) then Some id else None)) as [rv der] eqn:Mk.
  destruct (err_eqb rv EST_ERR_NONE) eqn:Er; [|exact (stop_here _ s _ _ _ E)]. apply err_eqb_eq in Er. subst rv.
  refine (req_proves X op x der t s evs r _ Eo _ E). intro It. split; [|exact (M _ _ Mk)]. unfold password, wants_pop in *. destruct (c_pop (s_c s) || c_force (s_c s)); [|reflexivity].
  f_equal. exact (uid_text _ _ _ _ It U Cs).
Qed.
Lemma pkcs10_behaves : forall X op x csr k, enrolls op -> (forall cp der, x_sign_csr X csr cp k = (EST_ERR_NONE, der) -> makes X x cp op der) ->
  behaves (proves X x) (est_client_enroll_pkcs10 X op csr k).
Proof.
  intros X op x csr k Eo M t s evs r E. unfold est_client_enroll_pkcs10 in E. unfold mbind at 1, get in E. apply nil_pair in E.
  assert (G : forall cp, (identified t -> password (s_c s) t cp) ->
    (let '(rv, der) := x_sign_csr X csr cp k in if err_eqb rv EST_ERR_NONE then est_client_enroll_req X op der t else ret rv) s = (evs, r) ->
    quiet (proves X x t (s_c s)) evs /\ forall e s', r = Ok (e, s') -> alike (s_c s) (s_c s') /\ s_env s' = s_env s).
  { intros cp Pw E'. destruct (x_sign_csr X csr cp k) as [rv der] eqn:Mk. destruct (err_eqb rv EST_ERR_NONE) eqn:Er; [|exact (stop_here _ s _ _ _ E')].
    apply err_eqb_eq in Er. subst rv. refine (req_proves X op x der t s evs r cp Eo _ E'). intro It. split; [exact (Pw It)|exact (M _ _ Mk)]. }
  unfold mbind at 1 in E. unfold password, wants_pop in *. destruct (c_pop (s_c s) || c_force (s_c s)).
  - unfold mbind, lift in E. destruct (tls_uid t) as [[[blk n]|]|] eqn:U; cbn [bind] in E; [| |exact (stuck_here _ s _ _ E)].
    + destruct (cstr blk) as [id|] eqn:Cs; cbn [bind ret] in E; [|exact (stuck_here _ s _ _ E)].
      apply (G (Some id)); [intro It; f_equal; exact (uid_text _ _ _ _ It U Cs)|]. cbv zeta in E. cbn [Datatypes.app] in E. 
      match type of E with context [x_sign_csr X csr (Some id) k] => idtac end. unfold ret in E. cbv beta iota in E.
      destruct ((let '(rv, der) := x_sign_csr X csr (Some id) k in if err_eqb rv EST_ERR_NONE then est_client_enroll_req X op der t else fun s0 => ([], Ok (rv, s0))) s) as [e2 r2] eqn:G2. unfold ret. rewrite G2. exact E.
    + unfold ret in E. cbn in E. exact (stop_here _ s _ _ _ E).
  - unfold ret at 1 in E. apply nil_pair in E. exact (G None (fun _ => eq_refl) E).
Qed.
Lemma asis_behaves : forall X csr, behaves (proves X (EnrollCsr (Some csr) None)) (est_client_enroll_req X OP_SIMPLE_ENROLL csr).
Proof.
  intros X csr t s evs r E. refine (req_proves X OP_SIMPLE_ENROLL _ csr t s evs r (if c_pop (s_c s) || c_force (s_c s) then Some (b64_encode (tls_unique t)) else None) _ _ E).
  - unfold enrolls. auto.
  - intros _. split; [unfold password; destruct (c_pop (s_c s) || c_force (s_c s)); reflexivity|constructor].
Qed.

(** ** The calls *)
Definition certifies (x : call) : Prop :=
  match x with Enroll _ _ | Keygen _ _ | Reenroll _ _ | EnrollCsr _ _ | KeygenCsr _ _ => True | _ => False end.
Lemma no_events : forall Q c w (evs : list event) (r r' : res (est_error * st)), ([], r') = (evs, r) -> sent_on Q c w evs.
Proof. intros Q c w evs r r' E. injection E as <- _. apply sent_nil. Qed.
Lemma plain_events : forall (m : M est_error) s evs r, Client.plain m s = (evs, r) -> exists r', m s = (evs, r').
Proof. intros m s evs r E. unfold Client.plain, mbind, ret in E. destruct (m s) as [e1 [[x s1]|]]; injection E as <- <-; [rewrite app_nil_r|]; eexists; reflexivity. Qed.
Lemma then_quiet : forall {A B} (m : M A) (k : A -> M B) s evs r, (forall a s', fst (k a s') = []) -> mbind m k s = (evs, r) -> exists r', m s = (evs, r').
Proof.
  intros A B m k s evs r K E. unfold mbind in E. destruct (m s) as [e1 [[x s1]|]]; [|injection E as <- <-; eexists; reflexivity].
  pose proof (K x s1) as H. destruct (k x s1) as [e2 r2]. cbn [fst] in H. subst e2. injection E as <- <-. rewrite app_nil_r. eexists. reflexivity.
Qed.
Lemma certifies_sends : forall X x s evs r, certifies x -> perform X x s = (evs, r) -> sent_on (proves X x) (s_c s) (s_env s) evs.
Proof.
  intros X x s evs r Cx E. destruct x; try contradiction Cx; cbn [perform] in E; apply plain_events in E as [r0 E].
  - unfold est_client_enroll, est_client_enroll_internal in E. unfold mbind at 1, get in E. apply nil_pair in E. destruct (negb (c_init (s_c s))); [exact (no_events _ _ _ _ _ _ E)|]. destruct key as [k|]; [|exact (no_events _ _ _ _ _ _ E)].
    apply then_quiet in E as [r1 E]; [|intros [e b] s'; destruct b; reflexivity]. refine (twice_sends _ X true _ _ (proves_alike X _) s evs r1 E). apply cn_behaves; [unfold enrolls; auto|]. intros cp der H. now constructor.
  - unfold est_client_server_keygen_enroll, est_client_enroll_internal in E. unfold mbind at 1, get in E. apply nil_pair in E. destruct (negb (c_init (s_c s))); [exact (no_events _ _ _ _ _ _ E)|]. destruct key as [k|]; [|exact (no_events _ _ _ _ _ _ E)].
    apply then_quiet in E as [r1 E]; [|intros [e b] s'; destruct b; reflexivity]. refine (twice_sends _ X true _ _ (proves_alike X _) s evs r1 E). apply cn_behaves; [unfold enrolls; auto|]. intros cp der H. now constructor.
  - unfold est_client_reenroll in E. unfold mbind at 1, get in E. apply nil_pair in E. destruct cert as [ct|]; [|exact (no_events _ _ _ _ _ _ E)]. destruct key as [k|]; [|exact (no_events _ _ _ _ _ _ E)].
    destruct (negb (c_init (s_c s))); [exact (no_events _ _ _ _ _ _ E)|]. destruct (x_csr_of_cert X ct k) as [e csr] eqn:Ec. destruct (negb (err_eqb e EST_ERR_NONE)) eqn:En; [exact (no_events _ _ _ _ _ _ E)|].
    apply negb_false_iff, err_eqb_eq in En. subst e. destruct csr as [rq|]; [|exact (no_events _ _ _ _ _ _ E)].
    apply then_quiet in E as [r1 E]; [|intros [e b] s'; reflexivity]. refine (twice_sends _ X true _ _ (proves_alike X _) s evs r1 E). apply pkcs10_behaves; [unfold enrolls; auto|]. intros cp der H. econstructor; eauto.
  - unfold est_client_enroll_csr, est_client_enroll_csr_internal in E. unfold mbind at 1, get in E. apply nil_pair in E. destruct csr as [rq|]; [|exact (no_events _ _ _ _ _ _ E)]. destruct (negb (c_init (s_c s))); [exact (no_events _ _ _ _ _ _ E)|].
    apply then_quiet in E as [r1 E]; [|intros [e b] s'; reflexivity]. refine (twice_sends _ X false _ _ (proves_alike X _) s evs r1 E). destruct key as [k|]; [|apply asis_behaves]. apply pkcs10_behaves; [unfold enrolls; auto|]. intros cp der H. now constructor.
  - unfold est_client_server_keygen_enroll_csr in E. destruct key as [k|]; [|exact (no_events _ _ _ _ _ _ E)]. unfold est_client_enroll_csr_internal in E. unfold mbind at 1, get in E. apply nil_pair in E. destruct csr as [rq|]; [|exact (no_events _ _ _ _ _ _ E)]. destruct (negb (c_init (s_c s))); [exact (no_events _ _ _ _ _ _ E)|].
    apply then_quiet in E as [r1 E]; [|intros [e b] s'; reflexivity]. refine (twice_sends _ X false _ _ (proves_alike X _) s evs r1 E). apply pkcs10_behaves; [unfold enrolls; auto|]. intros cp der H. now constructor.
Qed.
