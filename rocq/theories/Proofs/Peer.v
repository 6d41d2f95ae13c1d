(** Proofs about certificate verification and what events tell. *)
From Coq Require Import String ZArith List Bool Lia ZifyBool ZifyNat.
From Verif Require Import Base Model.CLib Model.EstErr Model.Peer Spec.Peer.
Import ListNotations.
Open Scope Z_scope.

(** ** Subjects *)
Lemma set_nth_app {A} : forall (a : list A) x b v, set_nth (length a) (a ++ x :: b) v = a ++ v :: b.
Proof. induction a as [|y a IH]; intros; cbn; [reflexivity|]. rewrite IH. reflexivity. Qed.
Lemma wr_after : forall a x b v, wr (a ++ x :: b) (len a) v = Ok (a ++ v :: b).
Proof.
  intros. unfold wr, len. rewrite Nat2Z.id.
  replace (0 <=? Z.of_nat (length a)) with true by lia.
  rewrite nth_error_app2, Nat.sub_diag by lia. cbn. now rewrite set_nth_app.
Qed.
Lemma wr_outside : forall m i v, len m <= i -> wr m i v = UB.
Proof.
  intros m i v H. unfold wr, len in *. destruct (0 <=? i) eqn:Hi; [|reflexivity].
  rewrite (proj2 (nth_error_None m (Z.to_nat i))) by lia. reflexivity.
Qed.

Lemma subject_fits : forall s block n, s <> [] -> 0 <= n -> n < len block ->
  exists rest, est_get_subj_fld_from_cert s block n = Ok (EST_ERR_NONE, firstn (Z.to_nat n) s ++ 0 :: rest)
    /\ length (firstn (Z.to_nat n) s ++ 0 :: rest) = length block.
Proof.
  intros s block n Hs Hn Hb. unfold est_get_subj_fld_from_cert.
  destruct s as [|c s0]; [contradiction|]. remember (c :: s0) as s eqn:E. clear E c s0.
  set (t := firstn (Z.to_nat n) s).
  assert (Ht : len t = (if len s <? n then len s else n)).
  { unfold t, len. rewrite firstn_length. destruct (Z.of_nat (length s) <? n) eqn:Q; lia. }
  unfold copy_to. assert (len t < len block) by (rewrite Ht; unfold len in *; destruct (Z.of_nat (length s) <? n) eqn:Q; lia).
  replace (len t <=? len block) with true by lia. cbn [bind].
  destruct (skipn (length t) block) as [|x rest] eqn:K.
  { apply (f_equal (@length Z)) in K. rewrite skipn_length in K. unfold len in H. cbn in K. lia. }
  rewrite <- Ht, wr_after. cbn [bind]. exists rest. split; [reflexivity|].
  rewrite <- (firstn_skipn (length t) block), !app_length, K, firstn_length. cbn. unfold len in H. lia.
Qed.
(** In a block of exactly the announced size only shorter subjects fit. *)
Lemma subject_tight : forall s block n, 0 <= n -> len block = n ->
  (est_get_subj_fld_from_cert s block n = UB <-> s <> [] /\ n <= len s).
Proof.
  intros s block n Hn Hb. unfold est_get_subj_fld_from_cert.
  destruct s as [|c s0]; [split; [discriminate|intros [[] _]; reflexivity]|].
  remember (c :: s0) as s eqn:E. assert (s <> []) by (rewrite E; discriminate). clear E c s0.
  unfold copy_to.
  assert (Hl : len (firstn (Z.to_nat n) s) <= len block) by (unfold len in *; rewrite firstn_length; lia).
  replace (len (firstn (Z.to_nat n) s) <=? len block) with true by lia. cbn [bind].
  split.
  - intros K. split; [assumption|]. destruct (len s <? n) eqn:Q; [|lia]. exfalso.
    rewrite (firstn_all2 s) in K by (unfold len in Q; lia).
    destruct (skipn (length s) block) as [|x r] eqn:E.
    + apply (f_equal (@length Z)) in E. rewrite skipn_length in E. unfold len in *. cbn in E. lia.
    + rewrite wr_after in K. discriminate K.
  - intros [_ Q]. replace (len s <? n) with false by lia.
    rewrite wr_outside; [reflexivity|].
    unfold len in *. rewrite app_length, skipn_length, firstn_length. lia.
Qed.

(** ** Verification *)
Definition mentions_long (k : check) : Prop :=
  k_error k <> 0 /\ exists s, k_subject k = Some s /\ 255 <= len s.

Lemma ossl_cb_ok : forall k, ~ mentions_long k ->
  ossl_verify_cb k = Ok (if (k_error k =? 0) || (k_error k =? 3) then 1 else 0).
Proof.
  intros k H. unfold ossl_verify_cb, X509_V_OK, X509_V_ERR_UNABLE_TO_GET_CRL.
  destruct (k_error k =? 0) eqn:E0; [reflexivity|]. cbn [orb].
  destruct (k_subject k) as [s|] eqn:S; [|reflexivity].
  destruct (est_get_subj_fld_from_cert s (repeat 0 (Z.to_nat EST_MAX_CERT_SUBJ_LEN)) EST_MAX_CERT_SUBJ_LEN) eqn:G; [reflexivity|].
  exfalso. apply subject_tight in G; [|now cbv|unfold len; rewrite repeat_length; reflexivity].
  apply H. split; [lia|]. exists s. split; [exact S|]. exact (proj2 G).
Qed.
Lemma ossl_cb_ub : forall k, mentions_long k -> ossl_verify_cb k = UB.
Proof.
  intros k [E (s & S & L)]. unfold ossl_verify_cb, X509_V_OK.
  replace (k_error k =? 0) with false by lia. rewrite S.
  rewrite (proj2 (subject_tight s (repeat 0 (Z.to_nat EST_MAX_CERT_SUBJ_LEN)) EST_MAX_CERT_SUBJ_LEN
    ltac:(now cbv) ltac:(unfold len; rewrite repeat_length; reflexivity))); [reflexivity|].
  split; [intros ->; cbv in L; now apply L|exact L].
Qed.

Lemma mentions_long_dec : forall k, {mentions_long k} + {~ mentions_long k}.
Proof.
  intros k. unfold mentions_long. destruct (Z.eq_dec (k_error k) 0) as [E|E]; [right; tauto|].
  destruct (k_subject k) as [s|]; [|right; intros [_ (s & K & _)]; discriminate].
  destruct (Z_le_dec 255 (len s)); [left|right; intros [_ (s' & K & L)]; injection K as <-; contradiction].
  split; [assumption|]. eauto.
Defined.

Section OwnStore.
Variables (v : verifier) (manual : bool).
Hypothesis own : v_own v = false.

Lemma store_verify : forall l, Forall (fun k => ~ mentions_long k) l ->
  exists b, x509_verify (callback v manual) l = Ok (b, []) /\ (b = true <-> Forall (fun k => harmless (k_error k)) l).
Proof.
  induction l as [|k l IH]; intros H; cbn [x509_verify].
  { exists true. split; [reflexivity|split; [constructor|reflexivity]]. }
  inversion H as [|? ? Hk Hl]; subst. unfold callback at 1. rewrite own, ossl_cb_ok by assumption. cbn [bind].
  destruct ((k_error k =? 0) || (k_error k =? 3)) eqn:E; cbn.
  - destruct (IH Hl) as (b & Kb & Hb). rewrite Kb. cbn [bind]. exists b. split; [reflexivity|].
    rewrite Hb. split; [intros F; constructor; [unfold harmless, NO_CRL; lia|exact F]|intros F; now inversion F].
  - exists false. split; [reflexivity|]. split; [discriminate|].
    intros F. inversion F as [|? ? Q _]; subst. unfold harmless, NO_CRL in Q. lia.
Qed.

Lemma store_verify_ub : forall l, x509_verify (callback v manual) l = UB <->
  exists pre k post, l = pre ++ k :: post /\ Forall (fun x => harmless (k_error x)) pre /\ mentions_long k.
Proof.
  induction l as [|k l IH]; cbn [x509_verify].
  { split; [discriminate|]. intros (pre & k & post & E & _). destruct pre; discriminate E. }
  unfold callback at 1. rewrite own.
  destruct (mentions_long_dec k) as [M|M].
  - rewrite ossl_cb_ub by assumption. cbn [bind]. split; [intros _|reflexivity].
    exists [], k, l. repeat split; constructor || apply M.
  - rewrite ossl_cb_ok by assumption. cbn [bind].
    destruct ((k_error k =? 0) || (k_error k =? 3)) eqn:E; cbn.
    + destruct (x509_verify (callback v manual) l) as [[b more]|] eqn:R; cbn.
      * split; [discriminate|]. intros (pre & k' & post & Eq & H1 & H3).
        destruct pre as [|p pre]; injection Eq as -> ->; [contradiction|].
        apply Forall_inv_tail in H1.
        assert (F : @Ok (bool * list Z) (b, more) = UB) by (apply IH; exists pre, k', post; auto). discriminate F.
      * split; [intros _|reflexivity]. destruct (proj1 IH eq_refl) as (pre & k' & post & -> & H1 & H3).
        exists (k :: pre), k', post. split; [reflexivity|].
        split; [constructor; [unfold harmless, NO_CRL; lia|assumption]|assumption].
    + split; [discriminate|]. intros (pre & k' & post & Eq & H1 & H3).
      destruct pre as [|p pre]; injection Eq as -> ->; [contradiction|].
      apply Forall_inv in H1. unfold harmless, NO_CRL in H1. lia.
Qed.
End OwnStore.

(** The client's own callback. *)
Definition toleratedb (manual : bool) (k : check) : bool :=
  (k_error k =? 0)
  || (if manual then ((k_error k =? 3) || (k_error k =? 19) || (k_error k =? 27)) && negb (k_answer k =? 0)
      else k_error k =? 3).
Lemma toleratedb_spec : forall manual k, toleratedb manual k = true <-> tolerated manual (k_error k) (k_answer k).
Proof.
  intros m k. unfold toleratedb, tolerated, may_be_approved, NO_CRL, SELF_SIGNED_IN_CHAIN, UNTRUSTED.
  destruct m; cbn; intuition (try lia); try discriminate.
Qed.
Definition asked_about (manual : bool) (l : list check) : list Z :=
  if manual then filter (fun e => (e =? 3) || (e =? 19) || (e =? 27)) (map k_error (up_to (toleratedb manual) l)) else [].

Lemma client_verify : forall manual l,
  x509_verify (callback client_verifier manual) l = Ok (forallb (toleratedb manual) l, asked_about manual l).
Proof.
  intros m. induction l as [|k l IH]; [destruct m; reflexivity|].
  cbn [x509_verify forallb]. unfold callback at 1. cbn [v_own client_verifier bind].
  unfold asked_about in *. cbn [up_to]. rewrite IH. clear IH.
  replace (map k_error (k :: (if toleratedb m k then up_to (toleratedb m) l else [])))
    with (k_error k :: if toleratedb m k then map k_error (up_to (toleratedb m) l) else []) by (destruct (toleratedb m k); reflexivity).
  unfold cert_verify_cb, X509_V_OK, X509_V_ERR_CERT_UNTRUSTED, X509_V_ERR_SELF_SIGNED_CERT_IN_CHAIN, X509_V_ERR_UNABLE_TO_GET_CRL.
  generalize (forallb (toleratedb m) l), (map k_error (up_to (toleratedb m) l)). intros fb ml.
  unfold toleratedb.
  destruct (k_error k =? 0) eqn:E0.
  { cbn. destruct m; [|reflexivity].
    replace (k_error k =? 3) with false by lia. replace (k_error k =? 19) with false by lia. replace (k_error k =? 27) with false by lia.
    reflexivity. }
  destruct (k_error k =? 3) eqn:E3, (k_error k =? 19) eqn:E19, (k_error k =? 27) eqn:E27, m; try lia;
    destruct (k_answer k =? 0) eqn:A; cbn; rewrite ?A, ?E0, ?E3, ?E19, ?E27; cbn; try reflexivity.
Qed.

(** ** Events *)
Lemma cstr_text : forall s r, ~ In 0 s -> cstr (s ++ 0 :: r) = Ok s.
Proof.
  induction s as [|c s IH]; intros r H; cbn; [reflexivity|].
  replace (c =? 0) with false by (cbn in H; lia). rewrite IH by (cbn in H; tauto). reflexivity.
Qed.
Lemma not_in_firstn {A} : forall n (l : list A) x, ~ In x l -> ~ In x (firstn n l).
Proof. intros n l x H K. apply H. rewrite <- (firstn_skipn n l). apply in_or_app. now left. Qed.

Definition known_subject (s : option bytes) : bytes := match s with Some t => firstn 255 t | None => [] end.
Definition known_address (ssl : bool) (p : peer) : bytes :=
  match p with
  | Some (f, Some s, _) => if ssl && ((f =? 4) || (f =? 6)) then s else []
  | _ => []
  end.
Definition known_port (ssl : bool) (p : peer) : Z :=
  match p with
  | Some (f, _, n) => if ssl && ((f =? 4) || (f =? 6)) then n else 0
  | None => 0
  end.
Definition printable_peer (p : peer) : Prop :=
  forall f s n, p = Some (f, Some s, n) -> ~ In 0 s /\ len s <= 45.

Lemma event_subject : forall s, ~ In 0 s -> exists e b,
  est_get_subj_fld_from_cert s (repeat 0 (Z.to_nat (EST_MAX_CERT_SUBJ_LEN + 1))) EST_MAX_CERT_SUBJ_LEN = Ok (e, b)
  /\ cstr b = Ok (firstn 255 s).
Proof.
  intros s H. destruct s as [|c s]; [exists EST_ERR_SYSCALL; eexists; split; reflexivity|].
  destruct (subject_fits (c :: s) (repeat 0 (Z.to_nat (EST_MAX_CERT_SUBJ_LEN + 1))) EST_MAX_CERT_SUBJ_LEN) as (r & K & _);
    [discriminate|now cbv|unfold len; rewrite repeat_length; cbv; reflexivity|].
  exists EST_ERR_NONE. eexists. split; [exact K|]. apply cstr_text. apply not_in_firstn. exact H.
Qed.
Lemma event_address : forall p, printable_peer p -> exists e b,
  est_invoke_enroll_get_ip_port p (repeat 0 (Z.to_nat (INET6_ADDRSTRLEN + 1))) INET6_ADDRSTRLEN = Ok (e, b, known_port true p)
  /\ cstr b = Ok (known_address true p).
Proof.
  intros [[[f [s|]] n]|] H; unfold est_invoke_enroll_get_ip_port, known_port, known_address; cbn [andb].
  - destruct (H _ _ _ eq_refl) as [H0 H1]. change (wr (repeat 0 (Z.to_nat (INET6_ADDRSTRLEN + 1))) 0 0) with (Ok (repeat 0 47)). cbn [bind].
    destruct ((f =? 4) || (f =? 6)).
    + unfold INET6_ADDRSTRLEN. replace (len s <? 46) with true by lia. unfold copy_to.
      replace (len (s ++ [0]) <=? len (repeat 0 47)) with true
        by (unfold len in *; rewrite app_length, repeat_length; cbn [length]; lia).
      cbn [bind]. do 2 eexists. split; [reflexivity|]. rewrite <- app_assoc. cbn [app]. now apply cstr_text.
    + do 2 eexists. split; reflexivity.
  - change (wr (repeat 0 (Z.to_nat (INET6_ADDRSTRLEN + 1))) 0 0) with (Ok (repeat 0 47)). cbn [bind].
    destruct ((f =? 4) || (f =? 6)); do 2 eexists; split; reflexivity.
  - do 2 eexists; split; reflexivity.
Qed.

Lemma endpoint_event : forall subject ssl p uri,
  (forall s, subject = Some s -> ~ In 0 s) -> printable_peer p ->
  est_invoke_endpoint_req_event_cb subject ssl p uri =
    Ok {| d_subject := known_subject subject; d_uri := uri; d_address := known_address ssl p; d_port := known_port ssl p |}.
Proof.
  intros subject ssl p uri Hs Hp. unfold est_invoke_endpoint_req_event_cb.
  assert (A : exists e b, (if ssl then est_invoke_enroll_get_ip_port p (repeat 0 (Z.to_nat (INET6_ADDRSTRLEN + 1))) INET6_ADDRSTRLEN
                           else Ok (EST_ERR_NONE, repeat 0 (Z.to_nat (INET6_ADDRSTRLEN + 1)), 0)) = Ok (e, b, known_port ssl p)
                          /\ cstr b = Ok (known_address ssl p)).
  { destruct ssl; [now apply event_address|]. do 2 eexists. split.
    - unfold known_port. destruct p as [[[? ?] ?]|]; reflexivity.
    - unfold known_address. destruct p as [[[? [?|]] ?]|]; reflexivity. }
  destruct A as (e & b & A & Ab).
  destruct subject as [s|].
  - destruct (event_subject s (Hs s eq_refl)) as (e' & b' & K & Kb). rewrite K. cbn [bind]. rewrite A. cbn [bind].
    rewrite Kb. cbn [bind]. rewrite Ab. reflexivity.
  - cbn [bind]. rewrite A. cbn [bind]. change (cstr (repeat 0 (Z.to_nat (EST_MAX_CERT_SUBJ_LEN + 1)))) with (@Ok bytes []).
    cbn [bind]. rewrite Ab. reflexivity.
Qed.

(** An enroll event whose subjects are found writes behind the address array. *)
Lemma enroll_event_ub : forall subject csr p stack, len stack = 46 -> ~ In 0 csr -> csr <> [] ->
  (forall s, subject = Some s -> ~ In 0 s /\ s <> []) ->
  est_invoke_enroll_req_event_cb subject csr p stack = UB.
Proof.
  intros subject csr p stack Hl H0 H1 Hs. unfold est_invoke_enroll_req_event_cb, est_invoke_enroll_get_subjs.
  set (z := repeat 0 (Z.to_nat (EST_MAX_CERT_SUBJ_LEN + 1))).
  assert (W : wr z 0 0 = Ok z) by reflexivity. rewrite !W. cbn [bind].
  assert (F : forall s, ~ In 0 s -> s <> [] -> exists c b, est_get_subj_fld_from_cert s z EST_MAX_CERT_SUBJ_LEN = Ok (EST_ERR_NONE, c :: b) /\ c <> 0).
  { intros s N Q. destruct (subject_fits s z EST_MAX_CERT_SUBJ_LEN) as (r & K & _); [exact Q|now cbv|reflexivity|].
    rewrite K. destruct s as [|c s]; [contradiction|]. change (Z.to_nat EST_MAX_CERT_SUBJ_LEN) with (S 254). cbn [firstn app].
    exists c. eexists. split; [reflexivity|]. cbn in N. tauto. }
  destruct (F csr H0 H1) as (c & b & Kc & Nc).
  assert (R : forall x y, rd (x :: y) 0 = Ok x) by reflexivity.
  assert (U : copy_to stack (repeat 0 (Z.to_nat (INET6_ADDRSTRLEN + 1))) = UB).
  { unfold copy_to. rewrite Hl. reflexivity. }
  destruct subject as [s|].
  - destruct (Hs s eq_refl) as [N Q]. destruct (F s N Q) as (c' & b' & K' & N').
    rewrite K'. cbn [bind]. rewrite Kc. cbn [bind]. rewrite !R. cbn [bind].
    replace (c' =? 0) with false by lia. replace (c =? 0) with false by lia. cbn [andb orb]. rewrite U. reflexivity.
  - cbn [bind]. rewrite Kc. cbn [bind]. rewrite R. change (rd z 0) with (@Ok Z 0). cbn [bind].
    replace (c =? 0) with false by lia. cbn [andb orb]. rewrite U. reflexivity.
Qed.
