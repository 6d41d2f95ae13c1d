(** What the client context tells about the server's answers. *)
From Coq Require Import String ZArith List Bool Lia ZifyBool ZifyNat.
From Verif Require Import Base Spec.Http Spec.Client Spec.Multipart Spec.Inquiry Model.CLib Model.EstErr Model.HttpServer Model.Uri Model.AuthHdr Model.Codec Model.CsrAttrs Model.ClientHttp Model.Multipart Model.Host Model.Client Model.Inquiry
  Proofs.EstErr Proofs.HttpParse Proofs.ClientHeaders Proofs.ClientHttp Proofs.ClientRender Proofs.ClientRounds Proofs.MultipartHeaders Proofs.MultipartResponse.
Import ListNotations.
Open Scope Z_scope.

(** ** One response *)
Lemma tokens_keep : forall f s c rv c', auth_tokens f s c = Ok (rv, c') -> k_status c' = k_status c /\ k_delay c' = k_delay c.
Proof.
  induction f as [|f IH]; intros s c rv c' H; [discriminate|]. cbn [auth_tokens] in H. destruct (next_field s) as [[t s1]|]; [|discriminate]. cbn [bind] in H.
  destruct t as [[token z]|]; [|injection H as _ <-; auto].
  repeat match type of H with (if ?b then _ else _) = _ => destruct b end.
  all: try (destruct (next_field s1) as [[v s2]|]; [|discriminate]; cbn [bind] in H; destruct v as [x|]; [|try (injection H as <- <-; split; reflexivity); apply IH in H; exact H]).
  all: repeat match type of H with (if ?b then _ else _) = _ => destruct b end.
  all: try discriminate; try (injection H as <- <-; split; reflexivity); apply IH in H; exact H.
Qed.
Lemma request_keep : forall m hs c c', est_io_parse_http_auth_request m hs c = Ok c' -> k_status c' = k_status c /\ k_delay c' = k_delay c.
Proof.
  induction hs as [|[n v] hs IH]; intros c c' H; cbn [est_io_parse_http_auth_request] in H; [injection H as <-; split; reflexivity|].
  destruct (cstr_at m n) as [name|]; [|discriminate]. cbn [bind] in H. destruct (strncmp_eq 16 name _); [|now apply IH].
  destruct (cstr_at m v) as [value|]; [|discriminate]. cbn [bind] in H.
  assert (G : forall md, (' (rv, c') <- est_io_parse_auth_tokens (skipn (Z.to_nat v) m) (set_mode md c) ;; Ok (if err_eqb rv EST_ERR_NONE then c' else set_mode AUTH_FAIL c')) = Ok c' ->
    k_status c' = k_status c /\ k_delay c' = k_delay c).
  { intros md Q. unfold est_io_parse_auth_tokens in Q. destruct (next_field _) as [[t0 s1]|]; [|discriminate]. cbn [bind] in Q.
    destruct (auth_tokens _ _ _) as [[rv c1]|] eqn:T; [|discriminate]. cbn [bind] in Q. apply tokens_keep in T. destruct (err_eqb rv EST_ERR_NONE); injection Q as <-; exact T. }
  cbv zeta in H. destruct (strncmp_eq 5 value _); [eapply G; exact H|]. destruct (strncmp_eq 6 value (str "Digest")); [eapply G; exact H|].
  destruct (strncmp_eq 6 value (str "Bearer")); [eapply G; exact H|]. injection H as <-. split; reflexivity.
Qed.
Lemma retry_text_out : forall ts rv c rv' c', retry_text ts rv c = (rv', c') ->
  k_status c' = k_status c /\ ((rv' = rv /\ c' = c) \/ (rv' = EST_ERR_CA_ENROLL_RETRY /\ exists h, In h ts /\ retry_header h (k_delay c'))).
Proof.
  induction ts as [|h ts IH]; intros rv c rv' c' H; [cbn in H; apply pair_equal_spec in H as [<- <-]; auto|].
  rewrite retry_step in H. destruct (usable h) eqn:U.
  - apply usable_iff in U as (n & U). rewrite (usable_val h n U) in H. apply IH in H as [S H]. split; [exact S|]. right. destruct H as [[-> ->]|(-> & x & I & R)].
    + split; [reflexivity|]. exists h. split; [now left|exact U].
    + split; [reflexivity|]. exists x. split; [now right|exact R].
  - apply IH in H as [S H]. split; [exact S|]. destruct H as [H|(-> & x & I & R)]; [now left|right]. split; [reflexivity|]. exists x. split; [now right|exact R].
Qed.
Lemma loop_out : forall m hs rv c rv' c', retry_loop m hs rv c = Ok (rv', c') ->
  k_status c' = k_status c /\ ((rv' = rv /\ c' = c) \/ (rv' = EST_ERR_CA_ENROLL_RETRY /\ 0 <= k_delay c' <= 2147483647)).
Proof.
  induction hs as [|[n v] hs IH]; intros rv c rv' c' H; cbn [retry_loop] in H; [injection H as <- <-; auto|].
  destruct (cstr_at m n) as [name|]; [|discriminate]. cbn [bind] in H. destruct (casecmp_upper name _); [|now apply IH].
  destruct (cstr_at m v) as [value|]; [|discriminate]. cbn [bind] in H. destruct (isalpha _) eqn:Al; [now apply IH|]. destruct (strisdigit_s value) eqn:D; [|now apply IH].
  destruct (strtoll value <=? INT_MAX) eqn:L; [|now apply IH].
  assert (U : usable (str "Retry-After", value) = true) by (unfold usable; cbn [fst snd]; rewrite Al, D, L; reflexivity).
  apply usable_iff in U as (k & U). pose proof (usable_val _ _ U) as Ek. cbn [snd] in Ek. rewrite Ek in H. destruct U as (_ & Dk & Lk). pose proof (decimal_nonneg _ _ Dk).
  apply IH in H as [S H]. split; [exact S|]. right. destruct H as [[-> ->]|H]; [|exact H]. cbn. split; [reflexivity|lia].
Qed.
Lemma status_keep : forall m hs st c rv c', status_result m hs st c = Ok (rv, c') ->
  k_status c' = k_status c
  /\ (rv <> EST_ERR_CA_ENROLL_RETRY -> k_delay c' = k_delay c \/ k_delay c' = 0)
  /\ (rv = EST_ERR_CA_ENROLL_RETRY -> st = 202 /\ 0 <= k_delay c' <= 2147483647 /\ retry_loop m hs EST_ERR_INVALID_RETRY_VALUE (set_delay 0 c) = Ok (rv, c')).
Proof.
  intros m hs st c rv c' H. unfold status_result in H.
  assert (G : forall e, e <> EST_ERR_CA_ENROLL_RETRY -> Ok (e, c) = Ok (rv, c') -> k_status c' = k_status c
    /\ (rv <> EST_ERR_CA_ENROLL_RETRY -> k_delay c' = k_delay c \/ k_delay c' = 0) /\ (rv = EST_ERR_CA_ENROLL_RETRY -> st = 202 /\ 0 <= k_delay c' <= 2147483647 /\ retry_loop m hs EST_ERR_INVALID_RETRY_VALUE (set_delay 0 c) = Ok (rv, c'))).
  { intros e N Q. injection Q as <- <-. repeat split; auto; contradiction. }
  repeat match type of H with (if ?b then Ok (?e, c) else _) = _ => destruct b; [apply (G e); [discriminate|exact H]|] end.
  destruct (st =? 202) eqn:E2.
  { unfold est_io_parse_http_retry_after_resp in H. pose proof (loop_out _ _ _ _ _ _ H) as [S O]. split; [exact S|]. destruct O as [[-> ->]|[-> O]].
    - split; [intros _; right; reflexivity|discriminate].
    - split; [contradiction|]. intros _. split; [lia|]. split; assumption. }
  destruct (st =? 400); [apply (G EST_ERR_HTTP_BAD_REQ); [discriminate|exact H]|].
  destruct (st =? 401).
  { assert (Q : (Ok (EST_ERR_AUTH_FAIL, set_mode AUTH_FAIL c) = Ok (rv, c')) \/ (c' <- est_io_parse_http_auth_request m hs c ;; Ok (EST_ERR_AUTH_FAIL, c')) = Ok (rv, c')) by (destruct (k_mode c); auto).
    destruct Q as [Q|Q]; [injection Q as <- <-; split; [reflexivity|]; split; [now left|discriminate]|].
    destruct (est_io_parse_http_auth_request m hs c) as [c1|] eqn:P; [|discriminate]. cbn [bind] in Q. injection Q as <- <-. apply request_keep in P as [P1 P2].
    split; [exact P1|]. split; [now left|discriminate]. }
  repeat match type of H with (if ?b then Ok (?e, c) else _) = _ => destruct b; [apply (G e); [discriminate|exact H]|] end.
  apply (G EST_ERR_HTTP_UNSUPPORTED); [discriminate|exact H].
Qed.

(** The status of a complete answer. *)
Definition complete_status (r : list net) : option Z :=
  let '(rv, raw) := est_io_read_raw r [] in
  if err_eqb rv EST_ERR_NONE && (0 <? len raw) then Some (first_status status_codes raw) else None.
Lemma body_errors : forall m hs n cur op rv d, response_body m hs n cur op = Ok (rv, d) -> rv <> EST_ERR_CA_ENROLL_RETRY.
Proof.
  intros m hs n cur op rv d H. unfold response_body, est_io_check_http_hdrs in H. destruct (check_loop m hs _ _ _) as [r|]; [|discriminate]. cbn [bind] in H.
  destruct r as [[[|] [cl|]]|]; cbn [bind] in H; try (injection H as <- <-; discriminate).
  change (err_eqb EST_ERR_NONE EST_ERR_NONE) with true in H. cbv iota in H.
  repeat match type of H with (if ?b then _ else _) = _ => destruct b end; first [discriminate H|injection H as <- <-; discriminate|idtac].
Qed.

Lemma line_202 : forall raw, first_status status_codes raw = 202 -> status_line 202 raw.
Proof.
  intros raw H. unfold status_codes in H. cbn [first_status] in H.
  repeat match type of H with (if ?b then _ else _) = _ => destruct b eqn:?; [first [discriminate|idtac]|] end; try discriminate.
  match goal with P : prefixb (_ ++ print_int 202) raw = true |- _ => apply prefixb_spec in P; exact P end.
Qed.

Lemma response_told : forall r op k e d k', est_io_get_response r op k = Ok (e, d, k') ->
  k_status k' = match complete_status r with Some st => st | None => k_status k end
  /\ (e <> EST_ERR_CA_ENROLL_RETRY -> k_delay k' = k_delay k \/ k_delay k' = 0)
  /\ (e = EST_ERR_CA_ENROLL_RETRY -> asks_to_wait r (k_delay k')).
Proof.
  intros r op k e d k' H. unfold est_io_get_response in H. unfold complete_status.
  destruct (est_io_read_raw r []) as [rv0 raw] eqn:R. destruct (read_raw_result r [] rv0 raw ltac:(reflexivity) R) as (Er & Lr & _).
  destruct (err_eqb rv0 EST_ERR_NONE) eqn:N0; cbn [negb andb] in *.
  2: { injection H as <- <- <-. split; [reflexivity|]. split; [now left|]. intros ->. repeat destruct Er as [Er|Er]; discriminate || destruct Er. }
  apply err_eqb_eq in N0. subst rv0. pose proof (read_arrived _ _ R) as Ar.
  destruct (len raw <=? 0) eqn:L0.
  { injection H as <- <- <-. replace (0 <? len raw) with false by lia. split; [reflexivity|]. split; [now left|discriminate]. }
  replace (0 <? len raw) with true by lia. cbv zeta in H.
  remember (raw ++ repeat 0 (Z.to_nat (EST_CA_MAX - len raw))) as m eqn:Em.
  destruct (parse_response_headers m) as [[[m1 cur] hs]|] eqn:P; [|discriminate]. cbn [bind] in H.
  destruct (parse_any _ _ P) as (t & Et). pose proof (block_post m t) as B. cbv zeta in B. destruct (B Et) as (m1' & hs' & P' & B2 & B3 & B4 & _). clear B.
  rewrite P in P'. assert (m1' = m1) by congruence. assert (hs' = hs) by congruence. subst m1' hs'.
  assert (Tm : text m = text raw) by (subst m; apply text_zeros). rewrite Tm in *. fold (the_text raw) in B4.
  unfold est_io_parse_response_status_code in H. replace (first_status status_codes m) with (first_status status_codes raw) in H by (rewrite Em; symmetry; apply first_status_zeros).
  destruct (status_result m1 hs _ _) as [[rv1 c1]|] eqn:St; [|discriminate]. cbn [bind] in H.
  destruct (status_keep _ _ _ _ _ _ St) as (S1 & S2 & S3). cbn [k_status k_delay set_status] in S1, S2.
  destruct (err_eqb rv1 EST_ERR_NONE) eqn:E1.
  - apply err_eqb_eq in E1. subst rv1. assert (Q : k' = c1 /\ e <> EST_ERR_CA_ENROLL_RETRY).
    { destruct (status_only op); [injection H as <- <- <-; split; [reflexivity|discriminate]|].
      destruct (response_body m1 hs (len raw) cur op) as [[rv' d']|] eqn:Rb; [|discriminate]. cbn [bind] in H. injection H as <- <- <-. split; [reflexivity|]. eapply body_errors; exact Rb. }
    destruct Q as [-> Q]. split; [exact S1|]. split; [intros _; apply S2; discriminate|contradiction].
  - injection H as <- <- <-. split; [exact S1|]. split; [exact S2|]. intros E. destruct (S3 E) as (S4 & S5 & S6). split; [exact S5|].
    rewrite (retry_loop_text _ _ _ _ _ _ B4) in S6. injection S6 as S6. apply retry_text_out in S6 as [_ [[S6 _]|(_ & h & I & (C & D & _))]]; [congruence|].
    destruct (raw_lines raw) as (head & Er' & F). rewrite Forall_forall in F. destruct (F h I) as [Q|Q].
    + exfalso. destruct D as [D _]. contradiction.
    + exists raw, (fst h), (snd h), (the_body raw). repeat split; auto. now apply line_202. all: apply D.
Qed.
Lemma ok_val : forall A (a b : A), Ok a = Ok b -> a = b.
Proof. intros. congruence. Qed.
Lemma keygen_told : forall junk r k e d k', est_io_get_keygen_response junk r k = Ok (e, d, k') ->
  k_status k' = match complete_status r with Some st => st | None => k_status k end
  /\ (e <> EST_ERR_CA_ENROLL_RETRY -> k_delay k' = k_delay k \/ k_delay k' = 0)
  /\ (e = EST_ERR_CA_ENROLL_RETRY -> asks_to_wait r (k_delay k')).
Proof.
  intros junk r k e d k' H. unfold est_io_get_keygen_response in H. unfold complete_status.
  destruct (est_io_read_raw r []) as [rv0 raw] eqn:R. destruct (read_raw_result r [] rv0 raw ltac:(reflexivity) R) as (Er & Lr & _).
  destruct (err_eqb rv0 EST_ERR_NONE) eqn:N0; cbn [negb andb] in *.
  2: { injection H as <- <- <-. split; [reflexivity|]. split; [now left|]. intros ->. repeat destruct Er as [Er|Er]; discriminate || destruct Er. }
  apply err_eqb_eq in N0. subst rv0. pose proof (read_arrived _ _ R) as Ar.
  destruct (len raw <=? 0) eqn:L0.
  { injection H as <- <- <-. replace (0 <? len raw) with false by lia. split; [reflexivity|]. split; [now left|discriminate]. }
  replace (0 <? len raw) with true by lia. cbv zeta in H.
  remember (raw ++ repeat 0 (Z.to_nat (EST_CA_MAX - len raw))) as m eqn:Em.
  unfold est_io_parse_response_status_code in H. replace (first_status status_codes m) with (first_status status_codes raw) in H by (rewrite Em; symmetry; apply first_status_zeros).
  destruct (parse_and_split_keygen_rsp m) as [q|] eqn:P; [|discriminate]. cbn [bind] in H.
  assert (Et : exists post, m = text m ++ 0 :: post).
  { destruct (text_rest m) as (t & Et & Ht). destruct t as [|z t]; [|cbn in Ht; subst z; eauto]. exfalso. unfold parse_and_split_keygen_rsp in P. rewrite cstr_at_len in P.
    replace ((0 <=? 0) && (0 <=? len m)) with true in P by (pose proof (len_nonneg _ m); lia). cbn [Z.to_nat skipn] in P. rewrite cstr_none in P; [discriminate|].
    rewrite app_nil_r in Et. rewrite Et. apply text_no_nul. }
  destruct Et as [post Et]. pose proof (keygen_split (text m) post (text_no_nul m)) as K. cbv zeta in K. rewrite <- Et, P in K.
  assert (Tm : text m = text raw) by (subst m; apply text_zeros). rewrite Tm in *.
  destruct (kb_text (text raw)) as [B|]; [|apply ok_val in K; subst q; injection H as <- <- <-; split; [reflexivity|]; split; [now left|discriminate]].
  destruct K as (s' & pre' & hs & ts & bnd & E & _ & _ & _ & _ & F & _ & _ & Al). apply ok_val in E. subst q. generalize dependent (s' ++ 0 :: post). intros m1 F H. generalize dependent (len (text raw) - len (snd (resp_text (text raw)))). intros cur H.
  destruct (status_result m1 hs _ _) as [[rv1 c1]|] eqn:St; [|discriminate]. cbn [bind] in H.
  destruct (status_keep _ _ _ _ _ _ St) as (S1 & S2 & S3). cbn [k_status k_delay set_status] in S1, S2.
  destruct (err_eqb rv1 EST_ERR_NONE) eqn:E1.
  - apply err_eqb_eq in E1. subst rv1. destruct (keygen_payload _ m1 cur bnd) as [[rv' d']|] eqn:Kp; [|discriminate]. cbn [bind] in H. injection H as <- <- <-.
    split; [exact S1|]. split; [intros _; apply S2; discriminate|]. intros ->. exfalso.
    unfold keygen_payload in Kp. destruct bnd as [b|]; [|discriminate].
    destruct (cstr_at _ b) as [bd|]; [|discriminate]. cbn [bind] in Kp. destruct (cstr_at _ _) as [w|]; [|discriminate]. cbn [bind] in Kp. destruct (find_sub bd w); [|discriminate].
    destruct (parse_remaining_multipart_payload _ _ _ _) as [[[rv key] cert]|] eqn:Pm; [|discriminate]. cbn [bind] in Kp.
    assert (Hrv : rv <> EST_ERR_CA_ENROLL_RETRY).
    { unfold parse_remaining_multipart_payload in Pm. destruct (_ <=? _) in Pm; [discriminate Pm|]. destruct (cstr_at _ _) in Pm; [|discriminate Pm]. cbn [bind] in Pm. destruct (execute_loop _ _ _ _ _ _ _ _) as [[pz pp]|]; [|discriminate Pm].
      cbn [bind] in Pm. injection Pm as <- _ _. destruct (both_populated pp); [discriminate|]. destruct (_ <? _); discriminate. }
    destruct (negb (err_eqb rv EST_ERR_NONE)); [congruence|]. destruct (_ || _); discriminate.
  - injection H as <- <- <-. split; [exact S1|]. split; [exact S2|]. intros E. destruct (S3 E) as (S4 & S5 & S6). split; [exact S5|].
    rewrite (retry_loop_text _ _ _ _ _ _ F) in S6. injection S6 as S6. apply retry_text_out in S6 as [_ [[S6 _]|(_ & h & I & (C & D & _))]]; [congruence|].
    assert (G : exists h', In h' (the_text raw) /\ alike h h').
    { unfold the_text. clear - I Al. induction Al as [|x y l l' Hxy Al IH]; [destruct I|]. destruct I as [<-|I]; [exists y; split; [now left|exact Hxy]|]. destruct (IH I) as (h' & I' & A'). exists h'. split; [now right|exact A']. }
    destruct G as (h' & I' & (A1 & _ & A2)). destruct A2 as [A2|A2]; [|exfalso; destruct D as (_ & D & _); rewrite Forall_forall in D; specialize (D _ A2); cbv beta in D; lia].
    rewrite A1 in C. rewrite A2 in D.
    destruct (raw_lines raw) as (head & Er' & Fl). rewrite Forall_forall in Fl. destruct (Fl h' I') as [Q|Q].
    + exfalso. destruct D as [D _]. contradiction.
    + exists raw, (fst h'), (snd h'), (the_body raw). repeat split; auto. now apply line_202. all: apply D.
Qed.

(** ** Relations every call respects *)
Section Respect.
Variable X : ext.
Variable T : list event -> cctx -> cctx -> Prop.
Hypothesis T_nil : forall k, T [] k k.
Hypothesis T_app : forall e1 e2 k1 k2 k3, T e1 k1 k2 -> T e2 k2 k3 -> T (e1 ++ e2) k1 k3.
Hypothesis T_connect : forall s p a k, T [EConnect s p a] k k.
Hypothesis T_request : forall q k, T [ERequest q] k (set_status 0 k).
Hypothesis T_response : forall r op k e d k', est_io_get_response r op k = Ok (e, d, k') -> T [EResponse r] k k'.
Hypothesis T_keygen : forall r k e d k', est_io_get_keygen_response (x_junk X) r k = Ok (e, d, k') -> T [EResponse r] k k'.
Hypothesis T_mode : forall m k, T [] k (set_mode m k).
Hypothesis T_clear : forall k, T [] k (set_desc [] (set_err [] k)).

Definition ok {A} (m : M A) : Prop := forall s evs a s', m s = (evs, Ok (a, s')) -> T evs (c_http (s_c s)) (c_http (s_c s')).
(** After a response has been read from the connection. *)
Definition owes {A} (r : list net) (m : M A) : Prop := forall s evs a s', m s = (evs, Ok (a, s')) -> T (EResponse r :: evs) (c_http (s_c s)) (c_http (s_c s')).
Lemma ok_ret : forall A (a : A), ok (ret a).
Proof. intros A a s evs b s' H. injection H as <- <- <-. apply T_nil. Qed.
Lemma ok_bind : forall A B (m : M A) (f : A -> M B), ok m -> (forall a, ok (f a)) -> ok (mbind m f).
Proof.
  intros A B m f Hm Hf s evs b s' H. unfold mbind in H. destruct (m s) as [e1 [[a s1]|]] eqn:E; [|discriminate]. destruct (f a s1) as [e2 r] eqn:F. injection H as <- ->.
  eapply T_app; [eapply Hm; exact E|eapply Hf; exact F].
Qed.
Lemma owes_bind : forall A B r (m : M A) (f : A -> M B), owes r m -> (forall a, ok (f a)) -> owes r (mbind m f).
Proof.
  intros A B r m f Hm Hf s evs b s' H. unfold mbind in H. destruct (m s) as [e1 [[a s1]|]] eqn:E; [|discriminate]. destruct (f a s1) as [e2 q] eqn:F. injection H as <- ->.
  apply (T_app (EResponse r :: e1)) with (k2 := c_http (s_c s1)); [eapply Hm; exact E|eapply Hf; exact F].
Qed.
Lemma ok_lift : forall A (r : res A), ok (lift r).
Proof. intros A r s evs a s' H. unfold lift in H. destruct r; [|discriminate]. cbn in H. injection H as <- <- <-. apply T_nil. Qed.
Lemma ok_get : ok get.
Proof. intros s evs a s' H. injection H as <- <- <-. apply T_nil. Qed.
Lemma ok_upd : forall f, (forall c, T [] (c_http c) (c_http (f c))) -> ok (upd f).
Proof. intros f Hf s evs a s' H. injection H as <- <- <-. apply Hf. Qed.
Lemma ok_next : ok next.
Proof. intros s evs a s' H. unfold next in H. destruct (s_env s); injection H as <- <- <-; apply T_nil. Qed.
Lemma ok_emit_connect : forall s p a, ok (emit (EConnect s p a)).
Proof. intros sv p a s evs b s' H. injection H as <- <- <-. apply T_connect. Qed.
Lemma ok_if : forall A (b : bool) (m n : M A), ok m -> ok n -> ok (if b then m else n).
Proof. intros A [|] m n Hm Hn; assumption. Qed.
Lemma ok_exchange : forall A q t (m n : M A), ok m -> owes (t_reads t) n -> ok (w <~ exchange q t ;; if negb w then m else n).
Proof.
  intros A q t m n Hm Hn s evs a s' H. unfold exchange in H. cbv beta iota zeta delta [mbind upd emit ret] in H. cbn [s_c s_env] in H.
  destruct (t_write t); cbn [negb Datatypes.app] in H.
  - destruct (n _) as [e2 r] eqn:F. injection H as <- ->. apply Hn in F. cbn [s_c c_http put_http] in F.
    apply (T_app [ERequest q]) with (k2 := set_status 0 (c_http (s_c s))); [apply T_request|exact F].
  - destruct (m _) as [e2 r] eqn:F. injection H as <- ->. apply Hm in F. cbn [s_c c_http put_http] in F.
    apply (T_app [ERequest q]) with (k2 := set_status 0 (c_http (s_c s))); [apply T_request|exact F].
Qed.
Lemma owes_response : forall op t, owes (t_reads t) (get_response op t).
Proof.
  intros op t s evs a s' H. unfold get_response in H. cbv beta iota zeta delta [mbind upd get lift ret] in H.
  destruct (est_io_get_response _ _ _) as [[[rv d] k]|] eqn:E; [|discriminate]. cbn in H. injection H as <- <- <-. cbn. eapply T_response. exact E.
Qed.
Lemma owes_keygen : forall t, owes (t_reads t) (get_keygen_response X t).
Proof.
  intros t s evs a s' H. unfold get_keygen_response in H. cbv beta iota zeta delta [mbind upd get lift ret] in H.
  destruct (est_io_get_keygen_response _ _ _) as [[[rv d] k]|] eqn:E; [|discriminate]. cbn in H. injection H as <- <- <-. cbn. eapply T_keygen. exact E.
Qed.
Ltac okay := repeat first
  [ assumption | apply ok_ret | apply ok_get | apply ok_lift | apply ok_next | apply ok_emit_connect
  | (apply ok_upd; intros; cbn; first [apply T_nil | apply T_mode | apply T_clear])
  | (apply ok_bind; [|intro]) | apply ok_if
  | match goal with |- ok (match ?x with _ => _ end) => destruct x end ].
Lemma ok_connect : ok (est_client_connect X).
Proof. unfold est_client_connect. okay. Qed.
Lemma ok_send : forall op body t, ok (est_client_send_enroll_request X op body t).
Proof.
  intros op body t. unfold est_client_send_enroll_request. apply ok_bind; [apply ok_get|intros c]. apply ok_bind; [apply ok_lift|intros h]. apply ok_if; [apply ok_ret|].
  apply ok_bind; [apply ok_lift|intros q]. apply ok_exchange; [apply ok_ret|]. apply owes_bind; [|intros [[rv key] cert]; okay].
  destruct (is_keygen op); (apply owes_bind; [first [apply owes_keygen|apply owes_response]|intros [rv d]; okay]).
Qed.
Lemma ok_req : forall op der t, ok (est_client_enroll_req X op der t).
Proof. intros. unfold est_client_enroll_req. apply ok_bind; [apply ok_send|]. intros [[rv key] cert]. okay. Qed.
Lemma ok_pkcs10 : forall op csr key t, ok (est_client_enroll_pkcs10 X op csr key t).
Proof. intros. unfold est_client_enroll_pkcs10. generalize ok_req. generalize (est_client_enroll_req X). intros req Hr. okay; apply Hr. Qed.
Lemma ok_cn : forall op cn key t, ok (est_client_enroll_cn X op cn key t).
Proof. intros. unfold est_client_enroll_cn. generalize ok_req. generalize (est_client_enroll_req X). intros req Hr. okay; apply Hr. Qed.
Lemma ok_twice : forall tidy try, (forall t, ok (try t)) -> ok (twice X tidy try).
Proof.
  intros tidy try H. pose proof ok_connect. unfold twice. apply ok_bind; [assumption|]. intros [e|t]; [apply ok_ret|]. apply ok_bind; [apply H|]. intros rv. apply ok_bind; [apply ok_get|]. intros c.
  apply ok_if; [|apply ok_ret]. apply ok_if; [apply ok_ret|]. apply ok_bind; [assumption|]. intros [e|t2]; [apply ok_ret|]. apply ok_bind; [apply H|]. intros rv2. okay.
Qed.
Lemma ok_enroll : forall op cn key, ok (est_client_enroll_internal X op cn key).
Proof. intros op cn key. unfold est_client_enroll_internal. apply ok_bind; [apply ok_get|]. intros c. apply ok_if; [apply ok_ret|]. destruct key as [k|]; [|apply ok_ret].
  apply ok_bind; [apply ok_twice; apply ok_cn|]. intros [rv n]. okay. Qed.
Lemma ok_reenroll : forall x k, ok (est_client_reenroll X x k).
Proof.
  intros x k. unfold est_client_reenroll. apply ok_bind; [apply ok_get|]. intros c. destruct x as [x|]; [|apply ok_ret]. destruct k as [k|]; [|apply ok_ret]. apply ok_if; [apply ok_ret|].
  destruct (x_csr_of_cert X x k) as [e csr]. apply ok_if; [apply ok_ret|]. destruct csr; [|apply ok_ret]. apply ok_bind; [apply ok_twice; apply ok_pkcs10|]. intros [rv n]. apply ok_ret.
Qed.
Lemma ok_enroll_csr : forall op x k, ok (est_client_enroll_csr_internal X op x k).
Proof.
  intros op x k. unfold est_client_enroll_csr_internal. apply ok_bind; [apply ok_get|]. intros c. destruct x as [x|]; [|apply ok_ret]. apply ok_if; [apply ok_ret|].
  apply ok_bind; [|intros [rv n]; apply ok_ret]. apply ok_twice. destruct k; [apply ok_pkcs10|apply ok_req].
Qed.
Lemma ok_cacerts : forall out, ok (est_client_get_cacerts X out).
Proof.
  intros out. unfold est_client_get_cacerts. apply ok_bind; [apply ok_get|]. intros c. apply ok_if; [apply ok_ret|]. apply ok_if; [apply ok_ret|]. apply ok_bind; [apply ok_connect|]. intros [e|t]; [apply ok_ret|].
  unfold est_client_send_cacerts_request. apply ok_bind; [apply ok_get|]. intros c1. cbv zeta. apply ok_if; [apply ok_ret|]. apply ok_exchange; [apply ok_ret|]. apply owes_bind; [apply owes_response|].
  intros [rv d]. okay.
Qed.
Lemma ok_csrattrs : forall out, ok (est_client_get_csrattrs X out).
Proof.
  intros out. unfold est_client_get_csrattrs. apply ok_if; [apply ok_ret|]. apply ok_bind; [apply ok_connect|]. intros [e|t]; [apply ok_ret|]. apply ok_bind; [okay|]. intros _. apply ok_bind; [|intros [rv d]; okay].
  unfold est_client_send_csrattrs_request. apply ok_bind; [apply ok_get|]. intros c1. apply ok_bind; [apply ok_lift|]. intros h. apply ok_if; [apply ok_ret|]. apply ok_exchange; [apply ok_ret|]. apply owes_bind; [apply owes_response|].
  intros [rv d]. okay.
Qed.
Lemma ok_copy_cacerts : forall out, ok (est_client_copy_cacerts out).
Proof. intros out. unfold est_client_copy_cacerts. okay. Qed.
Lemma ok_provision : forall cn key, ok (est_client_provision_cert X cn key).
Proof.
  intros cn key. pose proof ok_enroll. unfold est_client_provision_cert. apply ok_bind; [apply ok_get|]. intros c. apply ok_if; [apply ok_ret|]. destruct key as [k|]; [|apply ok_ret].
  apply ok_bind; [apply ok_cacerts|]. intros rv. apply ok_if; [apply ok_ret|]. apply ok_bind; [apply ok_copy_cacerts|]. intros [rv2 ta]. apply ok_if; [apply ok_ret|].
  destruct (x_to_pem X _); [|apply ok_ret]. apply ok_bind; [okay|]. intros _. apply ok_if; [apply ok_ret|]. apply ok_bind; [okay|]. intros _. apply ok_bind; [apply ok_csrattrs|]. intros [rv3 o]. apply ok_if; [apply ok_ret|]. apply ok_enroll.
Qed.
Theorem ok_perform : forall x, ok (perform X x).
Proof.
  intros x. destruct x; cbn [perform]; unfold plain; try (apply ok_bind; [|intros; apply ok_ret]).
  - apply ok_enroll.
  - apply ok_enroll.
  - apply ok_reenroll.
  - apply ok_enroll_csr.
  - unfold est_client_server_keygen_enroll_csr. destruct key; [apply ok_enroll_csr|apply ok_ret].
  - apply ok_provision.
  - apply ok_cacerts.
  - apply ok_csrattrs.
  - unfold est_client_copy_enrolled_cert. okay.
  - unfold est_client_copy_server_generated_key. okay.
  - apply ok_copy_cacerts.
  - unfold est_client_set_auth, est_client_set_uid_pw. okay.
  - unfold est_client_set_auth_cred_cb. okay.
  - unfold est_client_enable_basic_auth_hint. okay.
  - unfold est_client_set_server. okay.
  - unfold est_client_force_pop. okay.
Qed.
End Respect.

(** ** The last status *)
Definition heard (n : Z) (e : event) : Z :=
  match e with
  | EConnect _ _ _ => n
  | ERequest _ => 0
  | EResponse r => match complete_status r with Some st => st | None => n end
  end.
Lemma perform_status : forall X x s evs a s', perform X x s = (evs, Ok (a, s')) ->
  k_status (c_http (s_c s')) = fold_left heard evs (k_status (c_http (s_c s))).
Proof.
  intros X x. apply (ok_perform X (fun evs k k' => k_status k' = fold_left heard evs (k_status k))); try reflexivity.
  - intros e1 e2 k1 k2 k3 H1 H2. rewrite fold_left_app, <- H1. exact H2.
  - intros r op k e d k' H. apply response_told in H as (H & _). exact H.
  - intros r k e d k' H. apply keygen_told in H as (H & _). exact H.
Qed.
Lemma ask_status : forall X x s evs a s', perform_ask X x s = (evs, Ok (a, s')) ->
  k_status (c_http (s_c s')) = fold_left heard evs (k_status (c_http (s_c s))).
Proof.
  intros X x s evs a s' H. destruct x as [x| |]; cbn [perform_ask] in H.
  - unfold mbind in H. destruct (perform X x s) as [e1 [[[e o] s1]|]] eqn:E; [|discriminate]. cbn in H. injection H as <- <- <-. rewrite app_nil_r. eapply perform_status. exact E.
  - unfold est_client_copy_retry_after in H. cbv beta iota zeta delta [mbind get upd ret] in H. destruct (c_init (s_c s)); cbn in H; injection H as <- <- <-; reflexivity.
  - unfold est_client_get_last_http_status in H. cbn in H. injection H as <- <- <-. reflexivity.
Qed.
Lemma read_full : forall evs d, arrives evs d -> len d <= EST_CA_MAX -> est_io_read_raw evs [] = (EST_ERR_NONE, d).
Proof.
  intros evs d (segs & rest & -> & F & <-) L. change (concat segs) with ([] ++ concat segs). change (len (concat segs)) with (len ([] ++ concat segs)) in L.
  assert (L0 : len (@nil Z) < EST_CA_MAX) by reflexivity. revert L0 L. generalize (@nil Z) at 1 2 4 5 as acc.
  induction F as [|p segs Np F IH]; intros acc L0 L; cbn [map Datatypes.app concat est_io_read_raw].
  - change (len (@nil Z) =? 0) with true. cbv iota. now rewrite app_nil_r.
  - assert (P : 0 < len p) by (destruct p; [contradiction|rewrite len_cons; pose proof (len_nonneg _ p); lia]). cbn [concat] in L. rewrite !len_app in L. pose proof (len_nonneg _ (concat segs)).
    replace (len p =? 0) with false by lia. cbv zeta. destruct (len p <? EST_CA_MAX - len acc) eqn:E1.
    + rewrite app_assoc. apply IH; rewrite ?len_app in *; lia.
    + replace (len p =? EST_CA_MAX - len acc) with true by lia.
      destruct F as [|q segs Nq F]; [cbn; now rewrite app_nil_r|]. exfalso. cbn [concat] in *. rewrite len_app in *. assert (0 < len q) by (destruct q; [contradiction|rewrite len_cons; pose proof (len_nonneg _ q); lia]).
      pose proof (len_nonneg _ (concat segs)). lia.
Qed.
Lemma first_known : forall raw, (In (first_status status_codes raw) known_statuses /\ status_line (first_status status_codes raw) raw)
  \/ (first_status status_codes raw = -1 /\ forall m, In m known_statuses -> ~ status_line m raw).
Proof.
  intros raw. change known_statuses with status_codes. generalize status_codes as l. induction l as [|c l IH]; [right; split; [reflexivity|intros m []]|]. cbn [first_status].
  destruct (prefixb _ raw) eqn:P; [left; split; [now left|now apply prefixb_spec]|]. destruct IH as [[H1 H2]|[H1 H2]]; [left; split; [now right|exact H2]|right]. split; [exact H1|].
  intros m [<-|I]; [|now apply H2]. intro Q. apply prefixb_spec in Q. congruence.
Qed.
Lemma complete_told : forall r, match complete_status r with Some st => answer_status r st | None => no_answer r end.
Proof.
  intros r. unfold complete_status. destruct (est_io_read_raw r []) as [rv raw] eqn:R. destruct (read_raw_result r [] rv raw ltac:(reflexivity) R) as (_ & L & _).
  destruct (err_eqb rv EST_ERR_NONE) eqn:E; cbn [andb].
  - apply err_eqb_eq in E. subst rv. pose proof (read_arrived _ _ R) as A. destruct (0 <? len raw) eqn:P.
    + exists raw. split; [exact A|]. split; [unfold EST_CA_MAX in L; lia|]. apply first_known.
    + intros d A'. left. rewrite (arrives_fun _ _ _ A' A). pose proof (len_nonneg _ raw). lia.
  - intros d A. right. destruct (Z_le_dec (len d) EST_CA_MAX) as [Q|Q]; [|unfold EST_CA_MAX in Q; lia]. rewrite (read_full _ _ A Q) in R. injection R as <- <-. discriminate.
Qed.
Lemma heard_told : forall evs, status_told evs (fold_left heard evs 0).
Proof.
  intros evs. induction evs as [|e evs IH] using rev_ind; [constructor|]. rewrite fold_left_app. cbn [fold_left]. destruct e as [s p a|q|r]; cbn [heard].
  - now constructor.
  - econstructor. exact IH.
  - pose proof (complete_told r) as H. destruct (complete_status r); [eapply told_answer|apply told_nothing]; eauto.
Qed.
Theorem dialogue_status : forall X anchors world log s, dialogue X {| s_c := est_client_init anchors; s_env := world |} log s ->
  status_told (all_events log) (k_status (c_http (s_c s))).
Proof.
  intros X an w log s H. replace (k_status (c_http (s_c s))) with (fold_left heard (all_events log) 0); [apply heard_told|].
  induction H as [|log s1 a evs r s2 H IH P]; [reflexivity|]. apply ask_status in P. unfold all_events in *. rewrite map_app, concat_app, fold_left_app, IH. cbn. rewrite app_nil_r. now rewrite P.
Qed.

(** ** The delay *)
Definition waited (evs : list event) (k k' : cctx) : Prop :=
  k_delay k' = k_delay k \/ k_delay k' = 0 \/ exists r, In (EResponse r) evs /\ asks_to_wait r (k_delay k').
Lemma perform_delay : forall X x s evs a s', perform X x s = (evs, Ok (a, s')) -> waited evs (c_http (s_c s)) (c_http (s_c s')).
Proof.
  intros X x. apply (ok_perform X (waited)); try (left; reflexivity).
  - intros e1 e2 k1 k2 k3 [H1|[H1|(r & I & H1)]] [H2|[H2|(r2 & I2 & H2)]]; unfold waited; rewrite ?H2, ?H1; auto;
      try (right; right; exists r2; split; [apply in_or_app; now right|exact H2]).
    right. right. exists r. split; [apply in_or_app; now left|exact H1].
  - intros r op k e d k' H. apply response_told in H as (_ & H1 & H2). destruct (err_eqb e EST_ERR_CA_ENROLL_RETRY) eqn:E.
    + apply err_eqb_eq in E. right. right. exists r. split; [now left|auto].
    + assert (N : e <> EST_ERR_CA_ENROLL_RETRY) by (intros ->; discriminate). destruct (H1 N); [now left|right; now left].
  - intros r k e d k' H. apply keygen_told in H as (_ & H1 & H2). destruct (err_eqb e EST_ERR_CA_ENROLL_RETRY) eqn:E.
    + apply err_eqb_eq in E. right. right. exists r. split; [now left|auto].
    + assert (N : e <> EST_ERR_CA_ENROLL_RETRY) by (intros ->; discriminate). destruct (H1 N); [now left|right; now left].
Qed.
Theorem dialogue_delay : forall X anchors world log s, dialogue X {| s_c := est_client_init anchors; s_env := world |} log s ->
  k_delay (c_http (s_c s)) = 0 \/ exists r, In (EResponse r) (all_events log) /\ asks_to_wait r (k_delay (c_http (s_c s))).
Proof.
  intros X an w log s H. induction H as [|log s1 a evs r s2 H IH P]; [now left|]. unfold all_events in *. rewrite map_app, concat_app. cbn. rewrite app_nil_r.
  assert (Q : waited evs (c_http (s_c s1)) (c_http (s_c s2))).
  { destruct a as [x| |]; cbn [perform_ask] in P.
    - unfold mbind in P. destruct (perform X x s1) as [e1 [[[e o] s3]|]] eqn:E; [|discriminate]. cbn in P. injection P as <- <- <-. rewrite app_nil_r. eapply perform_delay. exact E.
    - unfold est_client_copy_retry_after in P. cbv beta iota zeta delta [mbind get upd ret] in P. destruct (c_init (s_c s1)); cbn in P; injection P as <- <- <-; [right; now left|now left].
    - unfold est_client_get_last_http_status in P. cbn in P. injection P as <- <- <-. now left. }
  destruct Q as [Q|[Q|(q & I & Q)]].
  - rewrite Q. destruct IH as [IH|(q & I & IH)]; [now left|right]. exists q. split; [apply in_or_app; now left|exact IH].
  - now left.
  - right. exists q. split; [apply in_or_app; now right|exact Q].
Qed.

(** ** A call that says to come back *)
Section Retry.
Variable X : ext.
Hypothesis Own : own_errors X.
Notation delay s := (k_delay (c_http (s_c s))).
Notation RETRY := EST_ERR_CA_ENROLL_RETRY.
Definition answered (evs : list event) (s' : st) : Prop := exists b r, evs = b ++ [EResponse r] /\ asks_to_wait r (delay s').
Definition rq {A} (P : Prop) (err : A -> est_error) (m : M A) : Prop := forall s evs a s', m s = (evs, Ok (a, s')) -> err a = RETRY ->
  answered evs s' \/ (P /\ evs = [] /\ delay s' = delay s).
Definition rqo {A} (r : list net) (err : A -> est_error) (m : M A) : Prop := forall s evs a s', m s = (evs, Ok (a, s')) -> err a = RETRY -> answered (EResponse r :: evs) s'.
Lemma answered_app : forall e1 e2 s, answered e2 s -> answered (e1 ++ e2) s.
Proof. intros e1 e2 s (b & r & -> & H). exists (e1 ++ b), r. rewrite app_assoc. auto. Qed.
Lemma rq_ret : forall A (P : Prop) err (a : A), (err a = RETRY -> P) -> rq P err (ret a).
Proof. intros A P err a H s evs b s' E K. injection E as <- <- <-. right. auto. Qed.
Lemma rq_bind : forall A B P e0 err (m : M A) (f : A -> M B), rq P e0 m -> (forall a, rq (e0 a = RETRY) err (f a)) -> rq P err (mbind m f).
Proof.
  intros A B P e0 err m f Hm Hf s evs b s' H K. unfold mbind in H. destruct (m s) as [e1 [[a s1]|]] eqn:E; [|discriminate]. destruct (f a s1) as [e2 r] eqn:F. injection H as <- ->.
  destruct (Hf a s1 e2 b s' F K) as [Q|(Q1 & -> & Q3)]; [left; now apply answered_app|]. rewrite app_nil_r. destruct (Hm s e1 a s1 E Q1) as [(b0 & r & E0 & Q)|(R1 & R2 & R3)].
  - left. exists b0, r. rewrite Q3. auto.
  - right. rewrite Q3. auto.
Qed.
Lemma rqo_bind : forall A B r e0 err (m : M A) (f : A -> M B), rqo r e0 m -> (forall a, rq (e0 a = RETRY) err (f a)) -> rqo r err (mbind m f).
Proof.
  intros A B r e0 err m f Hm Hf s evs b s' H K. unfold mbind in H. destruct (m s) as [e1 [[a s1]|]] eqn:E; [|discriminate]. destruct (f a s1) as [e2 q] eqn:F. injection H as <- ->.
  destruct (Hf a s1 e2 b s' F K) as [Q|(Q1 & -> & Q3)]; [exact (answered_app (EResponse r :: e1) e2 s' Q)|]. rewrite app_nil_r. destruct (Hm s e1 a s1 E Q1) as (b0 & q & E0 & Q).
  exists b0, q. rewrite Q3. auto.
Qed.
Lemma rq_none : forall A P (m : M A), rq P (fun _ => EST_ERR_NONE) m.
Proof. intros A P m s evs a s' _ K. discriminate K. Qed.
Lemma rq_weak : forall A (P Q : Prop) err (m : M A), (P -> Q) -> rq P err m -> rq Q err m.
Proof. intros A P Q err m W H s evs a s' E K. destruct (H s evs a s' E K) as [R|(R & S)]; [now left|right; auto]. Qed.
Lemma rq_skip : forall A B P err (m : M A) (f : A -> M B), (forall s evs a s', m s = (evs, Ok (a, s')) -> evs = [] /\ delay s' = delay s) ->
  (forall a, rq P err (f a)) -> rq P err (mbind m f).
Proof.
  intros A B P err m f Hm Hf s evs b s' H K. unfold mbind in H. destruct (m s) as [e1 [[a s1]|]] eqn:E; [|discriminate]. destruct (f a s1) as [e2 r] eqn:F. injection H as <- ->.
  destruct (Hm _ _ _ _ E) as [-> D]. destruct (Hf a s1 e2 b s' F K) as [Q|(Q1 & -> & Q3)]; [now left|right]. rewrite Q3, D. auto.
Qed.
Lemma skip_get : forall s evs a s', get s = (evs, Ok (a, s')) -> evs = [] /\ delay s' = delay s.
Proof. intros s evs a s' H. injection H as <- <- <-. auto. Qed.
Lemma skip_lift : forall A (r : res A) s evs a s', lift r s = (evs, Ok (a, s')) -> evs = [] /\ delay s' = delay s.
Proof. intros A r s evs a s' H. unfold lift in H. destruct r; [|discriminate]. cbn in H. injection H as <- <- <-. auto. Qed.
Lemma skip_upd : forall f, (forall c, k_delay (c_http (f c)) = k_delay (c_http c)) -> forall s evs a s', upd f s = (evs, Ok (a, s')) -> evs = [] /\ delay s' = delay s.
Proof. intros f Hf s evs a s' H. injection H as <- <- <-. cbn. auto. Qed.
Lemma rq_exchange : forall A P err q t (m n : M A), rq False err m -> rqo (t_reads t) err n -> rq P err (w <~ exchange q t ;; if negb w then m else n).
Proof.
  intros A P err q t m n Hm Hn s evs a s' H K. unfold exchange in H. cbv beta iota zeta delta [mbind upd emit ret] in H. cbn [s_c s_env] in H. left.
  destruct (t_write t); cbn [negb Datatypes.app] in H.
  - destruct (n _) as [e2 r] eqn:F. injection H as <- ->. exact (answered_app [ERequest q] _ _ (Hn _ _ _ _ F K)).
  - destruct (m _) as [e2 r] eqn:F. injection H as <- ->. destruct (Hm _ _ _ _ F K) as [Q|[[] _]]. exact (answered_app [ERequest q] _ _ Q).
Qed.
Lemma rqo_response : forall op t, rqo (t_reads t) fst (get_response op t).
Proof.
  intros op t s evs a s' H K. unfold get_response in H. cbv beta iota zeta delta [mbind upd get lift ret] in H.
  destruct (est_io_get_response _ _ _) as [[[rv d] k]|] eqn:E; [|discriminate]. cbn in H. injection H as <- <- <-. cbn in K. apply response_told in E as (_ & _ & E). exists [], (t_reads t). split; [reflexivity|]. exact (E K).
Qed.
Lemma rqo_keygen : forall t, rqo (t_reads t) fst (get_keygen_response X t).
Proof.
  intros t s evs a s' H K. unfold get_keygen_response in H. cbv beta iota zeta delta [mbind upd get lift ret] in H.
  destruct (est_io_get_keygen_response _ _ _) as [[[rv d] k]|] eqn:E; [|discriminate]. cbn in H. injection H as <- <- <-. cbn in K. apply keygen_told in E as (_ & _ & E). exists [], (t_reads t). split; [reflexivity|]. exact (E K).
Qed.
Definition conn_err (r : est_error + session) : est_error := match r with inl e => e | inr _ => EST_ERR_NONE end.
Lemma rq_connect : forall P, rq P conn_err (est_client_connect X).
Proof.
  intros P s evs a s' H K. exfalso. unfold est_client_connect in H. cbv beta iota zeta delta [mbind get emit next ret lift] in H.
  destruct (s_env s) as [|[f|t] w]; cbn in H.
  - injection H as <- <- <-. discriminate K.
  - injection H as <- <- <-. destruct f; discriminate K.
  - destruct (est_client_check_fqdn _ _ _ _ _) as [e|]; [|discriminate]. cbn in H. destruct (err_eqb e EST_ERR_NONE); injection H as <- <- <-; discriminate K.
Qed.
Ltac skip := apply rq_skip; [first [apply skip_get|apply skip_lift|apply skip_upd; intros; reflexivity]|].
Lemma rq_send : forall op body t, rq False (fun x => fst (fst x)) (est_client_send_enroll_request X op body t).
Proof.
  intros op body t. unfold est_client_send_enroll_request. skip. intros c. skip. intros h. destruct (len h =? 0); [apply rq_ret; discriminate|]. skip. intros q.
  apply rq_exchange; [apply rq_ret; discriminate|].
  apply rqo_bind with (e0 := fun x => fst (fst x)).
  - destruct (is_keygen op); (eapply rqo_bind; [first [apply rqo_keygen|apply rqo_response]|intros [rv d]; apply rq_ret; auto]).
  - intros [[rv key] cert]. cbn [fst]. destruct (negb (err_eqb rv EST_ERR_NONE)); [apply rq_ret; auto|]. cbv zeta. destruct (err_eqb _ EST_ERR_NONE); apply rq_ret; try discriminate.
    cbn. unfold checked_cert. repeat match goal with |- context [if ?b then _ else _] => destruct b end; discriminate.
Qed.
Lemma rq_req : forall op der t, rq False (fun e => e) (est_client_enroll_req X op der t).
Proof.
  intros op der t. unfold est_client_enroll_req. eapply rq_bind; [apply rq_send|]. intros [[rv key] cert]. cbn [fst]. destruct (negb _); [apply rq_ret; auto|]. skip. intros _.
  destruct (is_keygen op); [|apply rq_ret; discriminate]. skip. intros _. destruct (x_key_matches X key cert); apply rq_ret; discriminate.
Qed.
Lemma rq_pkcs10 : forall op csr key t, rq False (fun e => e) (est_client_enroll_pkcs10 X op csr key t).
Proof.
  intros op csr key t. unfold est_client_enroll_pkcs10. skip. intros c. eapply rq_bind; [apply rq_none|]. intros cp. apply rq_weak with (P := False); [contradiction|].
  destruct cp as [cp|]; [|apply rq_ret; discriminate]. destruct Own as (_ & O & _). specialize (O csr cp key). destruct (x_sign_csr X csr cp key) as [rv der]. cbn [fst] in O. destruct (err_eqb rv EST_ERR_NONE); [apply rq_req|apply rq_ret; auto].
Qed.
Lemma rq_cn : forall op cn key t, rq False (fun e => e) (est_client_enroll_cn X op cn key t).
Proof.
  intros op cn key t. unfold est_client_enroll_cn. skip. intros c. skip. intros u. destruct u as [[blk n]|]; [|apply rq_ret; discriminate]. skip. intros z.
  destruct Own as (O & _). specialize (O key cn (if wants_pop c then Some z else None)). destruct (x_make_csr X key cn _) as [rv der]. cbn [fst] in O. destruct (err_eqb rv EST_ERR_NONE); [apply rq_req|apply rq_ret; auto].
Qed.
Lemma skip_ret : forall A (x : A) s evs a s', ret x s = (evs, Ok (a, s')) -> evs = [] /\ delay s' = delay s.
Proof. intros A x s evs a s' H. injection H as <- <- <-. auto. Qed.
Lemma rq_twice : forall tidy try, (forall t, rq False (fun e => e) (try t)) -> rq False fst (twice X tidy try).
Proof.
  intros tidy try H. unfold twice. eapply rq_bind; [apply rq_connect|]. intros [e|t]; [apply rq_ret; auto|]. cbn [conn_err]. apply rq_weak with (P := False); [contradiction|].
  eapply rq_bind; [apply H|]. intros rv. skip. intros c. destruct (err_eqb rv EST_ERR_AUTH_FAIL && _) eqn:E; [|apply rq_ret; auto]. apply rq_weak with (P := False); [contradiction|].
  destruct (mode_eqb _ _ && _); [apply rq_ret; discriminate|]. eapply rq_bind; [apply rq_connect|]. intros [e|t2]; [apply rq_ret; auto|]. cbn [conn_err]. apply rq_weak with (P := False); [contradiction|].
  eapply rq_bind; [apply H|]. intros rv2. cbv beta. destruct (tidy && _); [skip|apply rq_skip; [apply skip_ret|]]; intros; apply rq_ret; auto.
Qed.
Lemma rq_enroll : forall op cn key, rq False (fun e => e) (est_client_enroll_internal X op cn key).
Proof.
  intros op cn key. unfold est_client_enroll_internal. skip. intros c. destruct (negb _); [apply rq_ret; discriminate|]. destruct key as [k|]; [|apply rq_ret; discriminate].
  eapply rq_bind; [apply rq_twice; apply rq_cn|]. intros [rv n]. cbn [fst]. destruct n; [skip|apply rq_skip; [apply skip_ret|]]; intros; apply rq_ret; auto.
Qed.
Lemma rq_reenroll : forall x k, rq False (fun e => e) (est_client_reenroll X x k).
Proof.
  intros x k. unfold est_client_reenroll. skip. intros c. destruct x as [x|]; [|apply rq_ret; discriminate]. destruct k as [k|]; [|apply rq_ret; discriminate]. destruct (negb (c_init c)); [apply rq_ret; discriminate|].
  destruct Own as (_ & _ & O & _). specialize (O x k). destruct (x_csr_of_cert X x k) as [e csr]. cbn [fst] in O. destruct (negb _); [apply rq_ret; auto|]. destruct csr; [|apply rq_ret; discriminate].
  eapply rq_bind; [apply rq_twice; apply rq_pkcs10|]. intros [rv n]. apply rq_ret; auto.
Qed.
Lemma rq_enroll_csr : forall op x k, rq False (fun e => e) (est_client_enroll_csr_internal X op x k).
Proof.
  intros op x k. unfold est_client_enroll_csr_internal. skip. intros c. destruct x as [x|]; [|apply rq_ret; discriminate]. destruct (negb (c_init c)); [apply rq_ret; discriminate|].
  apply rq_bind with (e0 := fst); [|intros [rv n]; apply rq_ret; auto]. apply rq_twice. destruct k; [apply rq_pkcs10|apply rq_req].
Qed.
Lemma rq_cacerts : forall out, rq False (fun e => e) (est_client_get_cacerts X out).
Proof.
  intros out. unfold est_client_get_cacerts. skip. intros c. destruct (negb _); [apply rq_ret; discriminate|]. destruct (negb out); [apply rq_ret; discriminate|].
  eapply rq_bind; [apply rq_connect|]. intros [e|t]; [apply rq_ret; auto|]. cbn [conn_err]. apply rq_weak with (P := False); [contradiction|].
  unfold est_client_send_cacerts_request. skip. intros c1. cbv zeta. destruct (len _ =? 0); [apply rq_ret; discriminate|]. apply rq_exchange; [apply rq_ret; discriminate|].
  eapply rqo_bind; [apply rqo_response|]. intros [rv d]. cbn [fst]. destruct (negb _); [apply rq_ret; auto|]. destruct (len _ =? 0); [apply rq_ret; discriminate|]. destruct (EST_CA_MAX <? _); [apply rq_ret; discriminate|].
  destruct (verify_cacert_resp X (delivered_bytes d)) as [e text] eqn:V.
  assert (N : e <> RETRY).
  { destruct Own as (_ & _ & _ & O1 & O2 & _). unfold verify_cacert_resp in V. specialize (O1 (delivered_bytes d)). specialize (O2 (delivered_bytes d)). destruct (x_p7_certs X _) as [e1 certs]. cbn [fst] in O1.
    destruct (negb _); [injection V as <- _; exact O1|]. cbv zeta in V. destruct (x_remove_crls X _) as [e2 t2]. cbn [fst] in O2. destruct (existsb _ _); injection V as <- _; [discriminate|exact O2]. }
  destruct (err_eqb e EST_ERR_NONE); skip; intros; apply rq_ret; try discriminate. intros K. destruct (N K).
Qed.
Lemma attrs_errors : forall s e pop, est_asn1_parse_attributes (x_G X) (x_bio X) s = Ok (e, pop) -> e <> RETRY.
Proof.
  intros s e pop H. unfold est_asn1_parse_attributes in H. destruct (len s <? 4); [injection H as <- _; discriminate|]. destruct (est_base64_decode _ _ _ _) as [[n der]|]; [|discriminate]. cbn [bind] in H.
  destruct (n <=? 0); [injection H as <- _; discriminate|]. unfold est_asn1_sanity_test in H. destruct (len der <? 2); [injection H as <- _; discriminate|].
  destruct (sanity_loop _ _ _ _) as [[p|]|]; cbn [bind] in H; [|injection H as <- _; discriminate|discriminate]. destruct (_ <? len der); injection H as <- _; discriminate.
Qed.
Lemma rq_csrattrs : forall out, rq False fst (est_client_get_csrattrs X out).
Proof.
  intros out. unfold est_client_get_csrattrs. destruct (negb out); [apply rq_ret; discriminate|]. eapply rq_bind; [apply rq_connect|]. intros [e|t]; [apply rq_ret; auto|]. cbn [conn_err]. apply rq_weak with (P := False); [contradiction|].
  skip. intros _. eapply rq_bind with (e0 := fst).
  - unfold est_client_send_csrattrs_request. skip. intros c1. skip. intros h. destruct (len h =? 0); [apply rq_ret; discriminate|]. apply rq_exchange; [apply rq_ret; discriminate|].
    eapply rqo_bind; [apply rqo_response|]. intros [rv d]. cbn [fst]. destruct (err_eqb rv EST_ERR_NONE); apply rq_ret; [discriminate|auto].
  - intros [rv d]. cbn [fst]. destruct (negb _); [apply rq_ret; auto|]. destruct d as [b|]; [|apply rq_ret; discriminate].
    intros s evs a s' H K. exfalso. unfold mbind at 1 in H. destruct (lift _ s) as [e1 [[[e pop] s1]|]] eqn:L; [|discriminate].
    assert (N : e <> RETRY). { unfold lift in L. destruct (est_asn1_parse_attributes _ _ _) as [[e' p']|] eqn:P; [|discriminate]. cbn in L. injection L as _ <- _ _. eapply attrs_errors; exact P. }
    cbn in H. destruct (err_eqb e EST_ERR_NONE); injection H as _ <- _; [discriminate K|exact (N K)].
Qed.
Ltac dull := repeat first [progress cbv zeta | match goal with |- rq _ _ (if ?b then _ else _) => destruct b | |- rq _ _ (match ?b with _ => _ end) => destruct b end | (skip; intro) | (apply rq_ret; discriminate)].
Lemma rq_provision : forall cn key, rq False (fun e => e) (est_client_provision_cert X cn key).
Proof.
  intros cn key. unfold est_client_provision_cert. skip. intros c. destruct (negb (c_init c)); [apply rq_ret; discriminate|]. destruct key as [k|]; [|apply rq_ret; discriminate].
  eapply rq_bind; [apply rq_cacerts|]. intros rv. cbv beta. destruct (negb _); [apply rq_ret; auto|]. apply rq_weak with (P := False); [contradiction|].
  eapply rq_bind with (e0 := fst).
  - unfold est_client_copy_cacerts. dull.
  - intros [rv2 ta]. cbn [fst]. destruct (negb _); [apply rq_ret; auto|]. apply rq_weak with (P := False); [contradiction|]. destruct (x_to_pem X _) as [pem|]; [|apply rq_ret; discriminate]. skip. intros _.
    destruct Own as (_ & _ & _ & _ & _ & O). destruct (negb _); [apply rq_ret; intros Q; exact (O _ Q)|]. skip. intros _.
    eapply rq_bind; [apply rq_csrattrs|]. intros [rv3 o]. cbn [fst]. destruct (_ && _); [apply rq_ret; auto|]. apply rq_weak with (P := False); [contradiction|]. apply rq_enroll.
Qed.
Lemma rq_plain : forall m, rq False (fun e => e) m -> rq False fst (plain m).
Proof. intros m H. unfold plain. eapply rq_bind; [exact H|]. intros e. apply rq_ret. auto. Qed.
Lemma segment_errors : forall seg e b, set_path_segment (x_uri X) (x_brski X) None seg = Ok (e, b) -> e <> RETRY.
Proof.
  intros seg e b H. unfold set_path_segment in H. destruct seg as [ps|]; [|injection H as <- _; discriminate]. destruct ps as [|z ps]; [injection H as <- _; discriminate|]. cbv zeta in H.
  destruct (128 <? _); [injection H as <- _; discriminate|]. destruct (est_parse_path_seg _ _ _) as [rc1|] eqn:Pr; [|discriminate]. cbn [bind] in H. destruct (negb (is_none rc1)) eqn:N1.
  - injection H as <- _. intros ->. clear N1. unfold est_parse_path_seg in Pr. cbv zeta in Pr. destruct (272 <? _); [discriminate|]. destruct (x_uri X _) as [[|s1 [|s2 [|s3 t3]]]|]; try discriminate.
    destruct (cstr _) as [cur|]; [|discriminate]. cbn [bind] in Pr. destruct (est_parse_operation _ cur); [discriminate|]. destruct t3; [|discriminate]. destruct (seg_after _ _) as [af|]; [|discriminate]. cbn [bind] in Pr.
    destruct (negb _) in Pr; discriminate Pr.
  - destruct (est_store_path_segment _ _) as [[e2 b2]|] eqn:S; [|discriminate]. cbn [bind] in H. injection H as <- _. unfold est_store_path_segment in S. cbv zeta in S. destruct (_ <? _); [discriminate|]. destruct (wr _ _ _); [|discriminate]. cbn [bind] in S. injection S as <- _. discriminate.
Qed.
Lemma rq_set_server : forall n p g, rq False (fun e => e) (est_client_set_server X n p g).
Proof.
  intros n p g. unfold est_client_set_server. skip. intros c. destruct (negb _); [apply rq_ret; discriminate|]. destruct n as [n|]; [|apply rq_ret; discriminate]. destruct (_ || _); [apply rq_ret; discriminate|].
  destruct (255 <? _); [apply rq_ret; discriminate|]. skip. intros _. intros s evs a s' H K. exfalso. unfold mbind at 1 in H. destruct (lift _ s) as [e1 [[[e b] s1]|]] eqn:L; [|discriminate].
  assert (N : e <> RETRY). { unfold lift in L. destruct (set_path_segment _ _ _ _) as [[e' p']|] eqn:P; [|discriminate]. cbn in L. injection L as _ <- _ _. eapply segment_errors; exact P. }
  destruct b as [blk|]; [|cbn in H; injection H as _ <- _; exact (N K)]. unfold lift in H. cbv beta iota zeta delta [mbind upd ret] in H. destruct (cstr blk); [|discriminate]. cbn in H. injection H as _ <- _. exact (N K).
Qed.
Lemma rq_perform : forall x, rq False fst (perform X x).
Proof.
  intros x. destruct x; cbn [perform]; try apply rq_plain.
  - apply rq_enroll.
  - apply rq_enroll.
  - apply rq_reenroll.
  - apply rq_enroll_csr.
  - unfold est_client_server_keygen_enroll_csr. destruct key; [apply rq_enroll_csr|apply rq_ret; discriminate].
  - apply rq_provision.
  - apply rq_cacerts.
  - apply rq_csrattrs.
  - unfold est_client_copy_enrolled_cert. dull.
  - unfold est_client_copy_server_generated_key. dull.
  - unfold est_client_copy_cacerts. dull.
  - unfold est_client_set_auth. apply rq_bind with (e0 := fun e => e); [unfold est_client_set_uid_pw; dull|]. intros rv. cbv beta. destruct (negb _); [apply rq_ret; auto|]. dull.
  - unfold est_client_set_auth_cred_cb. dull.
  - unfold est_client_enable_basic_auth_hint. dull.
  - apply rq_set_server.
  - unfold est_client_force_pop. dull.
Qed.
Theorem retry_waits : forall x s evs out s', perform X x s = (evs, Ok ((RETRY, out), s')) ->
  exists b r, evs = b ++ [EResponse r] /\ asks_to_wait r (delay s').
Proof. intros x s evs out s' H. destruct (rq_perform x s evs _ s' H eq_refl) as [Q|[[] _]]. exact Q. Qed.
End Retry.
