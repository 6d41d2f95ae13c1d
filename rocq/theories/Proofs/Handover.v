(** The certificates an application gets (C79). *)
From Coq Require Import String ZArith List Bool Lia ZifyBool ZifyNat.
From Verif Require Import Base Spec.Base64 Spec.Json Spec.Voucher Model.CLib Model.Codec Model.EstErr Model.AuthHdr Model.Jsmn Model.Voucher Model.Handover
  Spec.Handover Proofs.Codec Proofs.Jsmn Proofs.JsmnSafe Proofs.Voucher.
Import ListNotations.
Open Scope Z_scope.

Lemma put_at_start_is : forall b s m, put_at_start b s = Ok m <-> len s <= len b /\ m = overwritten b s.
Proof.
  intros. unfold put_at_start, overwritten. destruct (Z.leb_spec (len s) (len b)) as [E|E]; split.
  - intro H. split; [exact E|]. congruence.
  - now intros [_ ->].
  - discriminate.
  - intros [K _]. exfalso. lia.
Qed.
Lemma overwritten_twice : forall b s : bytes, (length s <= length b)%nat -> overwritten (overwritten b (repeat 0 (length s))) s = overwritten b s.
Proof.
  intros b s L. unfold overwritten. rewrite repeat_length. f_equal. rewrite skipn_app, repeat_length, Nat.sub_diag.
  rewrite skipn_all2 by (rewrite repeat_length; auto). reflexivity.
Qed.
Lemma overwritten_all : forall s, overwritten s (repeat 0 (length s)) = repeat 0 (length s).
Proof. intro s. unfold overwritten. rewrite repeat_length, skipn_all2 by auto. apply app_nil_r. Qed.
Lemma len_overwritten : forall b s, len s <= len b -> len (overwritten b s) = len b.
Proof. intros b s L. unfold overwritten, len in *. rewrite app_length, skipn_length. lia. Qed.

(** What copying does. *)
Lemma copy_run : forall c m v, b_initialized c = true -> b_brski c = true -> v_cacert (b_v c) = Some v ->
  est_client_brski_copy_cacert (Some c) (Some m)
  = if len v <=? len m then Ok (EST_ERR_NONE, Some (overwritten m v),
      Some (with_v c {| v_mode := v_mode (b_v c); v_delay := v_delay (b_v c); v_voucher := v_voucher (b_v c); v_cacert := Some (repeat 0 (length v)) |}))
    else UB.
Proof.
  intros c m v I B V. unfold est_client_brski_copy_cacert. rewrite I, B, V. cbn [negb].
  assert (Lr : len (repeat 0 (length v)) = len v) by (unfold len; now rewrite repeat_length).
  destruct (len v <=? len m) eqn:L.
  - rewrite (proj2 (put_at_start_is m (repeat 0 (length v)) _)) by (split; [lia|reflexivity]). cbn [bind].
    rewrite (proj2 (put_at_start_is _ v _)) by (split; [rewrite len_overwritten; lia|reflexivity]). cbn [bind].
    rewrite (proj2 (put_at_start_is v (repeat 0 (length v)) _)) by (split; [lia|reflexivity]). cbn [bind].
    rewrite overwritten_all, overwritten_twice by (unfold len in *; lia). reflexivity.
  - unfold put_at_start at 1. rewrite Lr, L. reflexivity.
Qed.
Lemma copy_inv : forall ctx m e m' ctx', est_client_brski_copy_cacert ctx m = Ok (e, m', ctx') ->
  (e <> EST_ERR_NONE /\ m' = m /\ ctx' = ctx)
  \/ (e = EST_ERR_NONE /\ exists c b v, ctx = Some c /\ b_initialized c = true /\ b_brski c = true /\ m = Some b /\ v_cacert (b_v c) = Some v /\ len v <= len b
      /\ m' = Some (overwritten b v)
      /\ ctx' = Some (with_v c {| v_mode := v_mode (b_v c); v_delay := v_delay (b_v c); v_voucher := v_voucher (b_v c); v_cacert := Some (repeat 0 (length v)) |})).
Proof.
  intros ctx m e m' ctx' H. destruct ctx as [c|].
  2: { cbn in H. left. repeat split; try congruence; intros ->; discriminate. }
  destruct (b_initialized c) eqn:I.
  2: { unfold est_client_brski_copy_cacert in H. rewrite I in H. left. cbn [negb] in H. repeat split; try congruence; intros ->; discriminate. }
  destruct (b_brski c) eqn:B.
  2: { unfold est_client_brski_copy_cacert in H. rewrite I, B in H. left. cbn [negb] in H. repeat split; try congruence; intros ->; discriminate. }
  destruct m as [b|].
  2: { unfold est_client_brski_copy_cacert in H. rewrite I, B in H. left. cbn [negb] in H. repeat split; try congruence; intros ->; discriminate. }
  destruct (v_cacert (b_v c)) as [v|] eqn:V.
  2: { unfold est_client_brski_copy_cacert in H. rewrite I, B, V in H. left. cbn [negb] in H. repeat split; try congruence; intros ->; discriminate. }
  rewrite (copy_run c b v I B V) in H. destruct (len v <=? len b) eqn:L; [|discriminate]. right. split; [congruence|].
  exists c, b, v. repeat split; try assumption; try lia; congruence.
Qed.

Section S.
Variable pkcs7 : Type.
Variable d2i_PKCS7 : bytes -> option pkcs7.
Variable PKCS7_verify : pkcs7 -> Z.
Variable pkcs7_data : pkcs7 -> bytes.
Variable verify_cacert_resp : bytes -> est_error * bytes.
Variable trust_store : bool.
Notation parse_voucher := (brski_parse_voucher pkcs7 d2i_PKCS7 PKCS7_verify pkcs7_data verify_cacert_resp trust_store).
Notation send_get_voucher := (est_client_brski_send_get_voucher pkcs7 d2i_PKCS7 PKCS7_verify pkcs7_data verify_cacert_resp trust_store).
Notation get_voucher := (est_client_brski_get_voucher pkcs7 d2i_PKCS7 PKCS7_verify pkcs7_data verify_cacert_resp trust_store).
Notation get_api := (est_client_brski_get_voucher_api pkcs7 d2i_PKCS7 PKCS7_verify pkcs7_data verify_cacert_resp trust_store).
Notation do_call := (do_call pkcs7 d2i_PKCS7 PKCS7_verify pkcs7_data verify_cacert_resp trust_store).
Notation do_calls := (do_calls pkcs7 d2i_PKCS7 PKCS7_verify pkcs7_data verify_cacert_resp trust_store).
Notation pins := (pins d2i_PKCS7 PKCS7_verify pkcs7_data verify_cacert_resp).

(** ** Calls that fail keep or drop what is stored; calls that succeed report
    length 0. *)
Lemma parse_kept : forall vo serial n nb sb cb cacert rv l ca, parse_voucher vo serial n nb sb cb cacert = Ok (rv, l, ca) ->
  l = 0 /\ (rv <> EST_ERR_NONE -> ca = cacert \/ ca = None).
Proof.
  intros vo serial n nb sb cb cacert rv l ca H. unfold brski_parse_voucher in H.
  assert (D : forall e ca0, Ok (e, 0, ca0) = Ok (rv, l, ca) -> (ca0 = cacert \/ ca0 = None) -> l = 0 /\ (rv <> EST_ERR_NONE -> ca = cacert \/ ca = None)).
  { intros e ca0 E K. assert (ca0 = ca) by congruence. assert (l = 0) by congruence. subst. tauto. }
  destruct (verify_voucher _ _ _ _ _ _) as [e|doc]; [eauto|].
  destruct (jsmn_parse _ _ _ _) as [[resp p]|]; cbn [bind] in H; [|discriminate].
  destruct (resp <? 0); [eauto|].
  destruct (retrieve_token_from_voucher _ nb _ _ _ _) as [nonce|]; cbn [bind] in H; [|discriminate].
  match type of H with bind ?x _ = _ => destruct x as [nc|]; cbn [bind] in H; [|discriminate] end.
  destruct nc as [e|]; [eauto|].
  destruct (retrieve_token_from_voucher _ sb _ _ _ _) as [[sr|]|]; cbn [bind] in H; [|eauto|discriminate].
  match type of H with context [if ?t then _ else _] => destruct t end; [eauto|].
  destruct (memcmp_eq _ _ _) as [same|]; cbn [bind] in H; [|discriminate].
  destruct same; [|eauto].
  destruct (retrieve_token_from_voucher _ cb _ _ _ _) as [[cr|]|]; cbn [bind] in H; [|eauto|discriminate].
  destruct (verify_cacert_resp _) as [e t]. destruct (err_eqb e EST_ERR_NONE); [|eauto].
  split; [congruence|]. intro. exfalso. congruence.
Qed.
Lemma send_kept : forall serial nb sb cb c nonce xs len0 rv l c' xs' tr,
  send_get_voucher serial nb sb cb c nonce xs len0 = Ok (rv, l, c', xs', tr) ->
  (rv = EST_ERR_NONE -> l = 0) /\ (rv <> EST_ERR_NONE -> v_cacert c' = v_cacert c \/ v_cacert c' = None).
Proof.
  intros serial nb sb cb c nonce xs len0 rv l c' xs' tr H. unfold est_client_brski_send_get_voucher in H.
  destruct xs as [|x xs]; [discriminate|].
  assert (D : forall e len1 c1 (xs1 : list exchange) (tr1 : list step), err_eqb e EST_ERR_NONE = false -> v_cacert c1 = v_cacert c ->
    Ok (e, len1, c1, xs1, tr1) = Ok (rv, l, c', xs', tr) ->
    (rv = EST_ERR_NONE -> l = 0) /\ (rv <> EST_ERR_NONE -> v_cacert c' = v_cacert c \/ v_cacert c' = None)).
  { intros e len1 c1 xs1 tr1 Ne Kc E. apply not_none in Ne. assert (e = rv) by congruence. assert (c1 = c') by congruence. subst. tauto. }
  destruct (err_eqb (x_connect x) EST_ERR_NONE) eqn:E1; cbn [negb] in H; [|now apply (D _ _ _ _ _ E1 eq_refl) in H].
  destruct nonce as [r|]; [|now apply (D EST_ERR_SYSCALL) in H].
  destruct (est_hex_to_str _ _ _) as [ns|]; cbn [bind] in H; [|discriminate].
  destruct (err_eqb (x_cert x) EST_ERR_NONE) eqn:E2; cbn [negb] in H; [|now apply (D _ _ _ _ _ E2 eq_refl) in H].
  assert (F : forall (quit : bool) e c2 xs2 tr2, (quit = true -> err_eqb e EST_ERR_NONE = false) -> v_cacert c2 = v_cacert c ->
    (if (quit : bool) then Ok (e, len0, c2, xs2, tr2)
     else if err_eqb e EST_ERR_NONE then
       '(rv', n, ca) <- parse_voucher (v_voucher c2) serial ns nb sb cb (v_cacert c2) ;;
       Ok (rv', n, {| v_mode := AUTH_NONE; v_delay := v_delay c2; v_voucher := v_voucher c2; v_cacert := ca |}, xs2, tr2)
     else Ok (e, len0, {| v_mode := AUTH_NONE; v_delay := v_delay c2; v_voucher := v_voucher c2; v_cacert := v_cacert c2 |}, xs2, tr2))
    = Ok (rv, l, c', xs', tr) ->
    (rv = EST_ERR_NONE -> l = 0) /\ (rv <> EST_ERR_NONE -> v_cacert c' = v_cacert c \/ v_cacert c' = None)).
  { intros quit e c2 xs2 tr2 Q Kc E. destruct quit; [exact (D _ _ _ _ _ (Q eq_refl) Kc E)|].
    destruct (err_eqb e EST_ERR_NONE) eqn:Ee.
    - destruct (parse_voucher _ _ _ _ _ _ _) as [[[rv' n] ca]|] eqn:P; cbn [bind] in E; [|discriminate].
      destruct (parse_kept _ _ _ _ _ _ _ _ _ _ P) as [-> K]. assert (rv' = rv) by congruence. assert (l = 0) by congruence.
      assert (Ec : {| v_mode := AUTH_NONE; v_delay := v_delay c2; v_voucher := v_voucher c2; v_cacert := ca |} = c') by congruence.
      rewrite <- Ec. cbn [v_cacert]. subst rv'. rewrite <- Kc. tauto.
    - apply (D _ _ _ _ _ Ee) in E; [exact E|exact Kc]. }
  destruct (err_eqb (x_reply x) EST_ERR_AUTH_FAIL && asks_auth (v_mode (after_send c x))).
  - destruct xs as [|y ys]; [discriminate|].
    destruct (err_eqb (x_connect y) EST_ERR_NONE) eqn:E3; cbn [negb bind] in H.
    + destruct (err_eqb (x_cert y) EST_ERR_NONE) eqn:E4; cbn [negb bind] in H.
      * revert H. apply (F false); [discriminate|reflexivity].
      * revert H. apply (F true); [auto|reflexivity].
    + revert H. apply (F true); [auto|reflexivity].
  - cbn [bind] in H. revert H. apply (F false); [discriminate|reflexivity].
Qed.
Lemma get_kept : forall ser nb sb cb c nonce1 nonce2 xs len0 rv l c' tr,
  get_voucher ser nb sb cb c nonce1 nonce2 xs len0 = Ok (rv, l, c', tr) ->
  (rv = EST_ERR_NONE -> l = 0) /\ (rv <> EST_ERR_NONE -> v_cacert c' = v_cacert c \/ v_cacert c' = None).
Proof.
  intros ser nb sb cb c nonce1 nonce2 xs len0 rv l c' tr H. unfold est_client_brski_get_voucher in H.
  assert (D : forall e, e <> EST_ERR_NONE -> Ok (e, len0, c, []) = Ok (rv, l, c', tr) ->
    (rv = EST_ERR_NONE -> l = 0) /\ (rv <> EST_ERR_NONE -> v_cacert c' = v_cacert c \/ v_cacert c' = None)).
  { intros e Ne E. assert (e = rv) by congruence. assert (c = c') by congruence. subst. tauto. }
  destruct ser as [s|]; [|apply D in H; [exact H|discriminate]].
  destruct (EST_BRSKI_MAX_SER_NUM_LEN <? _); [apply D in H; [exact H|discriminate]|].
  destruct (send_get_voucher _ nb sb cb c nonce1 xs len0) as [[[[[rv1 l1] c1] xs1] t1]|] eqn:S1; cbn [bind] in H; [|discriminate].
  apply send_kept in S1.
  destruct (err_eqb rv1 EST_ERR_CA_ENROLL_RETRY) eqn:R.
  - destruct (send_get_voucher _ nb sb cb c1 nonce2 xs1 l1) as [[[[[rv2 l2] c2] xs2] t2]|] eqn:S2; cbn [bind] in H; [|discriminate].
    apply send_kept in S2. assert (rv2 = rv) by congruence. assert (l2 = l) by congruence. assert (c2 = c') by congruence. subst rv2 l2 c2.
    assert (rv1 <> EST_ERR_NONE) by (intros ->; discriminate). destruct S1 as [_ S1]. destruct S2 as [S2 S3].
    split; [exact S2|]. intro N. destruct (S3 N) as [-> | ->]; [|auto]. apply S1. assumption.
  - assert (rv1 = rv) by congruence. assert (l1 = l) by congruence. assert (c1 = c') by congruence. subst. exact S1.
Qed.

Lemma pins_fun : forall did t t', pins did t -> pins did t' -> t = t'.
Proof.
  intros did t t' (d & n & x & p & q & cert & -> & _ & P & _ & J & K & V) (d2 & n2 & x2 & p2 & q2 & cert2 & E & _ & P2 & _ & J2 & K2 & V2).
  apply app_inj_tail in E. destruct E as [_ E]. injection E as -> ->.
  assert (p2 = p) by congruence. subst p2. assert (q2 = q) by congruence. subst q2. assert (cert2 = cert) by congruence. subst cert2. congruence.
Qed.

Definition stores (ctx : option bctx) : option bytes := match ctx with None => None | Some c => v_cacert (b_v c) end.
Definition ready (ctx : option bctx) : Prop := exists c, ctx = Some c /\ b_initialized c = true /\ b_brski c = true.

Lemma api_inv : forall ctx a n e n' ctx' tr, usual (Ask a n) -> get_api ctx a n = Ok (e, n', ctx', tr) ->
  (ready ctx <-> ready ctx')
  /\ (e <> EST_ERR_NONE -> stores ctx' = stores ctx \/ stores ctx' = None)
  /\ (e = EST_ERR_NONE -> ready ctx /\ n' = Some 0 /\ exists t, pins tr t /\ stores ctx' = Some t).
Proof.
  intros ctx a n e n' ctx' tr (Us & U1 & U2 & U3 & U4 & U5) H. unfold est_client_brski_get_voucher_api in H.
  assert (D : forall e0, e0 <> EST_ERR_NONE -> Ok (e0, n, ctx, []) = Ok (e, n', ctx', tr) ->
    (ready ctx <-> ready ctx') /\ (e <> EST_ERR_NONE -> stores ctx' = stores ctx \/ stores ctx' = None)
    /\ (e = EST_ERR_NONE -> ready ctx /\ n' = Some 0 /\ exists t, pins tr t /\ stores ctx' = Some t)).
  { intros e0 Ne E. assert (e0 = e) by congruence. assert (ctx = ctx') by congruence. subst. tauto. }
  destruct ctx as [c|]; [|apply D in H; [exact H|discriminate]].
  destruct (b_initialized c) eqn:I; cbn [negb] in H; [|apply D in H; [exact H|discriminate]].
  destruct (b_brski c) eqn:B; cbn [negb] in H; [|apply D in H; [exact H|discriminate]].
  destruct n as [l0|]; [|apply D in H; [exact H|discriminate]].
  destruct (get_voucher _ _ _ _ _ _ _ _ _) as [[[[rv l] v] tr0]|] eqn:G; cbn [bind] in H; [|discriminate].
  assert (rv = e) by congruence. assert (Some l = n') by congruence. assert (Some (with_v c v) = ctx') by congruence. assert (tr0 = tr) by congruence.
  subst. destruct (get_kept _ _ _ _ _ _ _ _ _ _ _ _ _ G) as [K1 K2]. split; [|split].
  - split; intros _; [exists (with_v c v)|exists c]; auto.
  - exact K2.
  - intros ->. split; [exists c; auto|]. split; [now rewrite K1|].
    destruct (a_serial a) as [s|] eqn:As; [|discriminate].
    assert (G1 : good_nonce (a_nonce1 a)) by (destruct (a_nonce1 a); [now apply U4|exact Logic.I]).
    assert (G2 : good_nonce (a_nonce2 a)) by (destruct (a_nonce2 a); [now apply U5|exact Logic.I]).
    pose proof (get_accepts _ _ _ _ _ _ s _ _ _ _ _ _ _ _ _ _ _ (Us s eq_refl) U1 U2 U3 G1 G2 G) as (r & x & p & t & _ & (d0 & ->) & R & P & _ & V & A & St & _).
    exists t. split; [|exact St]. destruct A as (q & cert & J & _ & _ & C & Vc). exists d0, (hex_string r ++ [0]), x, p, q, cert. repeat split; assumption.
Qed.

(** ** Histories *)
Lemma calls_app : forall ks ks' ctx ctx' es, do_calls ctx (ks ++ ks') = Ok (ctx', es) <->
  exists c1 es1 es2, do_calls ctx ks = Ok (c1, es1) /\ do_calls c1 ks' = Ok (ctx', es2) /\ es = es1 ++ es2.
Proof.
  induction ks as [|k ks IH]; intros ks' ctx ctx' es; cbn [app Handover.do_calls].
  - split; [intro H; exists ctx, [], es; auto|]. intros (c1 & es1 & es2 & E & H & ->). assert (ctx = c1) by congruence. assert (es1 = []) by congruence. subst. exact H.
  - destruct (do_call ctx k) as [[c e]|]; cbn [bind].
    2: { split; [discriminate|]. intros (c1 & es1 & es2 & E & _). discriminate. }
    split.
    + destruct (do_calls c (ks ++ ks')) as [[c2 e2]|] eqn:R; cbn [bind]; [|discriminate]. intro H.
      assert (c2 = ctx') by congruence. assert (e :: e2 = es) by congruence. subst.
      apply IH in R. destruct R as (c1 & es1 & es2 & R1 & R2 & ->). exists c1, (e :: es1), es2. rewrite R1. auto.
    + intros (c1 & es1 & es2 & H & R2 & ->). destruct (do_calls c ks) as [[c2 e2]|] eqn:R1; cbn [bind] in H; [|discriminate].
      assert (c2 = c1) by congruence. assert (e :: e2 = es1) by congruence. subst.
      rewrite (proj2 (IH ks' c ctx' (e2 ++ es2))); [reflexivity|]. exists c1, e2, es2. auto.
Qed.
Lemma calls_split : forall es1 ks ctx ctx' e es2, do_calls ctx ks = Ok (ctx', es1 ++ e :: es2) ->
  exists ks1 k ks2 c1 c2, ks = ks1 ++ k :: ks2 /\ do_calls ctx ks1 = Ok (c1, es1) /\ do_call c1 k = Ok (c2, e) /\ do_calls c2 ks2 = Ok (ctx', es2).
Proof.
  induction es1 as [|e1 es1 IH]; intros ks ctx ctx' e es2 H; (destruct ks as [|k ks]; cbn [Handover.do_calls] in H; [discriminate|]);
    (destruct (do_call ctx k) as [[c f]|] eqn:K; cbn [bind] in H; [|discriminate]);
    (destruct (do_calls c ks) as [[c2 e2]|] eqn:R; cbn [bind] in H; [|discriminate]); assert (c2 = ctx') by congruence; subst c2; cbn [app] in H.
  - assert (f = e) by congruence. assert (e2 = es2) by congruence. subst. exists [], k, ks, ctx, c. auto.
  - assert (f = e1) by congruence. assert (E : e2 = es1 ++ e :: es2) by congruence. subst.
    destruct (IH _ _ _ _ _ R) as (ks1 & k' & ks2 & c1 & c2 & -> & R1 & R2 & R3).
    exists (k :: ks1), k', ks2, c1, c2. cbn [Handover.do_calls]. rewrite K. cbn [bind]. rewrite R1. auto.
Qed.

(** What is stored after a history. *)
Definition zeroed (mid : list event) (t v : bytes) : Prop :=
  (Forall (fun e => ~ handed e) mid /\ v = t) \/ (Exists handed mid /\ v = repeat 0 (length t)).
Definition told (es : list event) (ctx : option bctx) : Prop :=
  (forall v, stores ctx = Some v -> ready ctx /\ exists earlier l did mid t,
     es = earlier ++ Asked EST_ERR_NONE l did :: mid /\ Forall (fun e => ~ granted e) mid /\ pins did t /\ zeroed mid t v)
  /\ (forall earlier l did mid, es = earlier ++ Asked EST_ERR_NONE l did :: mid -> Forall (fun e => ~ asked e) mid ->
       ready ctx /\ l = Some 0 /\ exists t v, pins did t /\ zeroed mid t v /\ stores ctx = Some v).

Lemma zeroed_keep : forall mid t v e, zeroed mid t v -> ~ handed e -> zeroed (mid ++ [e]) t v.
Proof.
  intros mid t v e [[F ->]|[E ->]] N; [left|right]; (split; [|reflexivity]).
  - apply Forall_app. auto.
  - apply Exists_app. auto.
Qed.
Lemma zeroed_hand : forall mid t v e, zeroed mid t v -> handed e -> zeroed (mid ++ [e]) t (repeat 0 (length v)).
Proof.
  intros mid t v e Z H. right. split; [apply Exists_app; right; now constructor|].
  destruct Z as [[_ ->]|[_ ->]]; [reflexivity|now rewrite repeat_length].
Qed.
(** The last event of a history that has a split. *)
Lemma split_snoc : forall (es earlier mid : list event) e x, es ++ [e] = earlier ++ x :: mid ->
  (mid = [] /\ e = x /\ es = earlier) \/ (exists mid', mid = mid' ++ [e] /\ es = earlier ++ x :: mid').
Proof.
  intros es earlier mid e x E. destruct mid as [|y mid] using rev_ind.
  - left. apply app_inj_tail in E. tauto.
  - right. clear IHmid. rewrite app_comm_cons, app_assoc in E. apply app_inj_tail in E. destruct E as [-> ->]. exists mid. auto.
Qed.

Lemma told_call : forall es ctx k ctx' e, usual k -> told es ctx -> do_call ctx k = Ok (ctx', e) -> told (es ++ [e]) ctx'.
Proof.
  intros es ctx k ctx' e U [T1 T2] H. destruct k as [a n|m]; cbn [Handover.do_call] in H.
  - destruct (get_api ctx a n) as [[[[rv n'] c] tr]|] eqn:G; cbn [bind] in H; [|discriminate].
    assert (c = ctx') by congruence. assert (Ee : e = Asked rv n' tr) by congruence. subst c e.
    destruct (api_inv _ _ _ _ _ _ _ U G) as (R & F & S). destruct (err_eqb rv EST_ERR_NONE) eqn:Er.
    + assert (rv = EST_ERR_NONE) by (destruct rv; cbn in Er; try discriminate; reflexivity). subst rv.
      destruct (S eq_refl) as (Rd & N0 & t & P & St). split.
      * intros v V. split; [now apply R|]. exists es, n', tr, [], t. assert (v = t) by congruence. subst v.
        split; [reflexivity|]. split; [constructor|]. split; [exact P|]. left. auto.
      * intros earlier l did mid E Fm. destruct (split_snoc _ _ _ _ _ E) as [(-> & Ex & ->)|(mid' & -> & _)].
        -- assert (n' = l) by congruence. assert (tr = did) by congruence. subst. split; [now apply R|]. split; [congruence|]. exists t, t. split; [exact P|]. split; [left; auto|exact St].
        -- exfalso. apply Forall_app in Fm. destruct Fm as [_ Fm]. inversion_clear Fm as [|? ? B _]. apply B. exact Logic.I.
    + apply not_none in Er. split.
      * intros v V. destruct (F Er) as [K|K]; [|congruence]. rewrite K in V. destruct (T1 v V) as (Rd & earlier & l & did & mid & t & -> & Fm & P & Z).
        split; [now apply R|]. exists earlier, l, did, (mid ++ [Asked rv n' tr]), t. rewrite <- app_assoc. split; [reflexivity|].
        split; [|split; [exact P|apply zeroed_keep; [exact Z|cbn; tauto]]]. apply Forall_app. split; [exact Fm|]. constructor; [|constructor]. cbn. destruct rv; try tauto; congruence.
      * intros earlier l did mid E Fm. exfalso. destruct (split_snoc _ _ _ _ _ E) as [(-> & Ex & ->)|(mid' & -> & _)]; [congruence|].
        apply Forall_app in Fm. destruct Fm as [_ Fm]. inversion_clear Fm as [|? ? B _]. apply B. exact Logic.I.
  - destruct (est_client_brski_copy_cacert ctx m) as [[[rv m'] c]|] eqn:G; cbn [bind] in H; [|discriminate].
    assert (c = ctx') by congruence. assert (Ee : e = Handed rv m m') by congruence. subst c e.
    apply copy_inv in G. destruct G as [(Ne & -> & ->)|(-> & c & b & v & -> & I & B & -> & V & L & -> & ->)].
    + assert (Nh : ~ handed (Handed rv m m)) by (cbn; destruct rv; tauto). split.
      * intros v V. destruct (T1 v V) as (Rd & earlier & l & did & mid & t & -> & Fm & P & Z).
        split; [exact Rd|]. exists earlier, l, did, (mid ++ [Handed rv m m]), t. rewrite <- app_assoc. split; [reflexivity|].
        split; [|split; [exact P|apply zeroed_keep; assumption]]. apply Forall_app. split; [exact Fm|]. constructor; [|constructor]. cbn. tauto.
      * intros earlier l did mid E Fm. destruct (split_snoc _ _ _ _ _ E) as [(-> & Ex & ->)|(mid' & -> & Ee)]; [discriminate|].
        apply Forall_app in Fm. destruct Fm as [Fm _]. destruct (T2 _ _ _ _ Ee Fm) as (Rd & El & t & v & P & Z & St).
        split; [exact Rd|]. split; [exact El|]. exists t, v. split; [exact P|]. split; [apply zeroed_keep; assumption|exact St].
    + assert (Rd' : ready (Some (with_v c {| v_mode := v_mode (b_v c); v_delay := v_delay (b_v c); v_voucher := v_voucher (b_v c); v_cacert := Some (repeat 0 (length v)) |})))
        by (eexists; split; [reflexivity|]; auto).
      split.
      * intros w W. cbn in W. assert (w = repeat 0 (length v)) by congruence. subst w.
        destruct (T1 v V) as (Rd & earlier & l & did & mid & t & -> & Fm & P & Z).
        split; [exact Rd'|]. exists earlier, l, did, (mid ++ [Handed EST_ERR_NONE (Some b) (Some (overwritten b v))]), t. rewrite <- app_assoc. split; [reflexivity|].
        split; [|split; [exact P|apply zeroed_hand; [exact Z|exact Logic.I]]]. apply Forall_app. split; [exact Fm|]. constructor; [|constructor]. cbn. tauto.
      * intros earlier l did mid E Fm. destruct (split_snoc _ _ _ _ _ E) as [(-> & Ex & ->)|(mid' & -> & Ee)]; [discriminate|].
        apply Forall_app in Fm. destruct Fm as [Fm _]. destruct (T2 _ _ _ _ Ee Fm) as (Rd & El & t & w & P & Z & St).
        assert (w = v) by (cbn in St; congruence). subst w.
        split; [exact Rd'|]. split; [exact El|]. exists t, (repeat 0 (length v)). split; [exact P|]. split; [apply zeroed_hand; [exact Z|exact Logic.I]|reflexivity].
Qed.
Lemma told_calls : forall ks es ctx ctx' es', Forall usual ks -> told es ctx -> do_calls ctx ks = Ok (ctx', es') -> told (es ++ es') ctx'.
Proof.
  induction ks as [|k ks IH]; intros es ctx ctx' es' U T H; cbn [Handover.do_calls] in H.
  - assert (ctx = ctx') by congruence. assert (es' = []) by congruence. subst. now rewrite app_nil_r.
  - inversion_clear U as [|? ? Uk Us]. destruct (do_call ctx k) as [[c e]|] eqn:K; cbn [bind] in H; [|discriminate].
    destruct (do_calls c ks) as [[c2 e2]|] eqn:R; cbn [bind] in H; [|discriminate].
    assert (c2 = ctx') by congruence. assert (Ee : es' = e :: e2) by congruence. subst c2 es'.
    replace (es ++ e :: e2) with ((es ++ [e]) ++ e2) by (now rewrite <- app_assoc). apply (IH _ _ _ _ Us (told_call _ _ _ _ _ Uk T K) R).
Qed.
Lemma told_fresh : forall ctx, stores ctx = None -> told [] ctx.
Proof. intros ctx N. split; [intros v V; congruence|]. intros earlier l did mid E. destruct earlier; discriminate. Qed.

Theorem handed_only : forall ctx ks ctx' before old new after, stores ctx = None -> Forall usual ks ->
  do_calls ctx ks = Ok (ctx', before ++ Handed EST_ERR_NONE old new :: after) ->
  exists earlier l did mid t m, before = earlier ++ Asked EST_ERR_NONE l did :: mid /\ Forall (fun e => ~ granted e) mid /\ pins did t
    /\ old = Some m /\ len t <= len m
    /\ ((Forall (fun e => ~ handed e) mid /\ new = Some (overwritten m t)) \/ (Exists handed mid /\ new = Some (overwritten m (repeat 0 (length t))))).
Proof.
  intros ctx ks ctx' before old new after N U H. destruct (calls_split _ _ _ _ _ _ H) as (ks1 & k & ks2 & c1 & c2 & -> & R1 & R2 & _).
  apply Forall_app in U. destruct U as [U _]. pose proof (told_calls _ _ _ _ _ U (told_fresh _ N) R1) as [T _]. cbn [app] in T.
  destruct k as [a n|m]; cbn [Handover.do_call] in R2.
  { destruct (get_api c1 a n) as [[[[? ?] ?] ?]|]; cbn [bind] in R2; discriminate. }
  destruct (est_client_brski_copy_cacert c1 m) as [[[rv m'] c]|] eqn:G; cbn [bind] in R2; [|discriminate].
  assert (rv = EST_ERR_NONE) by congruence. assert (m = old) by congruence. assert (m' = new) by congruence. subst.
  apply copy_inv in G. destruct G as [(Ne & _)|(_ & c0 & b & v & -> & I & B & -> & V & L & -> & _)]; [congruence|].
  destruct (T v V) as (_ & earlier & l & did & mid & t & -> & Fm & P & Z). exists earlier, l, did, mid, t, b.
  assert (Lv : len v = len t) by (destruct Z as [[_ ->]|[_ ->]]; unfold len; rewrite ?repeat_length; reflexivity).
  repeat split; auto; [lia|]. destruct Z as [[F ->]|[E ->]]; auto.
Qed.

Theorem refused_untouched : forall ctx ks ctx' before e old new after, e <> EST_ERR_NONE ->
  do_calls ctx ks = Ok (ctx', before ++ Handed e old new :: after) -> new = old.
Proof.
  intros ctx ks ctx' before e old new after Ne H. destruct (calls_split _ _ _ _ _ _ H) as (ks1 & k & ks2 & c1 & c2 & -> & R1 & R2 & _).
  destruct k as [a n|m]; cbn [Handover.do_call] in R2.
  { destruct (get_api c1 a n) as [[[[? ?] ?] ?]|]; cbn [bind] in R2; discriminate. }
  destruct (est_client_brski_copy_cacert c1 m) as [[[rv m'] c]|] eqn:G; cbn [bind] in R2; [|discriminate].
  assert (rv = e) by congruence. assert (m = old) by congruence. assert (m' = new) by congruence. subst.
  apply copy_inv in G. destruct G as [(_ & -> & _)|(-> & _)]; congruence.
Qed.

Lemma one_more : forall ctx ks ctx' es m, do_calls ctx ks = Ok (ctx', es) ->
  do_calls ctx (ks ++ [Hand (Some m)]) = match est_client_brski_copy_cacert ctx' (Some m) with
    Ok (e, m', ctx'') => Ok (ctx'', es ++ [Handed e (Some m) m']) | UB => UB end.
Proof.
  intros ctx ks ctx' es m H. destruct (est_client_brski_copy_cacert ctx' (Some m)) as [[[e m'] ctx'']|] eqn:G.
  - apply calls_app. exists ctx', es, [Handed e (Some m) m']. split; [exact H|]. split; [|reflexivity]. cbn [Handover.do_calls Handover.do_call]. rewrite G. reflexivity.
  - destruct (do_calls ctx (ks ++ [Hand (Some m)])) as [[c2 es2]|] eqn:R; [|reflexivity]. apply calls_app in R.
    destruct R as (c1 & es1 & e3 & R1 & R2 & _). assert (c1 = ctx') by congruence. subst. cbn [Handover.do_calls Handover.do_call] in R2. rewrite G in R2. discriminate.
Qed.

Theorem handed_after : forall ctx ks ctx' earlier l did mid t (m : bytes), stores ctx = None -> Forall usual ks ->
  do_calls ctx ks = Ok (ctx', earlier ++ Asked EST_ERR_NONE l did :: mid) -> Forall (fun e => ~ asked e) mid -> pins did t ->
  (len m < len t -> do_calls ctx (ks ++ [Hand (Some m)]) = UB)
  /\ (len t <= len m -> Forall (fun e => ~ handed e) mid -> exists ctx'',
        do_calls ctx (ks ++ [Hand (Some m)]) = Ok (ctx'', (earlier ++ Asked EST_ERR_NONE l did :: mid) ++ [Handed EST_ERR_NONE (Some m) (Some (overwritten m t))])).
Proof.
  intros ctx ks ctx' earlier l did mid t m N U H Fm P. pose proof (told_calls _ _ _ _ _ U (told_fresh _ N) H) as [_ T]. cbn [app] in T.
  destruct (T _ _ _ _ eq_refl Fm) as ((c & -> & I & B) & _ & t' & v & P' & Z & St). assert (t' = t) by exact (pins_fun _ _ _ P' P). subst t'.
  assert (Lv : len v = len t) by (destruct Z as [[_ ->]|[_ ->]]; unfold len; rewrite ?repeat_length; reflexivity).
  rewrite (one_more _ _ _ _ m H), (copy_run c m v I B St). split.
  - intro L. destruct (len v <=? len m) eqn:E; [lia|reflexivity].
  - intros L Fh. destruct (len v <=? len m) eqn:E; [|lia]. destruct Z as [[_ ->]|[Ex _]]; [eexists; reflexivity|].
    exfalso. apply Exists_exists in Ex. destruct Ex as (x & Ix & Hx). rewrite Forall_forall in Fh. exact (Fh x Ix Hx).
Qed.

Theorem length_zero : forall ctx ks ctx' before reported did after, stores ctx = None -> Forall usual ks ->
  do_calls ctx ks = Ok (ctx', before ++ Asked EST_ERR_NONE reported did :: after) -> reported = Some 0.
Proof.
  intros ctx ks ctx' before reported did after N U H. destruct (calls_split _ _ _ _ _ _ H) as (ks1 & k & ks2 & c1 & c2 & -> & R1 & R2 & _).
  apply Forall_app in U. destruct U as [_ U]. inversion_clear U as [|? ? Uk _].
  destruct k as [a n|m]; cbn [Handover.do_call] in R2.
  - destruct (get_api c1 a n) as [[[[e n'] c] tr]|] eqn:G; cbn [bind] in R2; [|discriminate].
    assert (e = EST_ERR_NONE) by congruence. assert (n' = reported) by congruence. subst. destruct (api_inv _ _ _ _ _ _ _ Uk G) as (_ & _ & S). now destruct (S eq_refl) as (_ & -> & _).
  - destruct (est_client_brski_copy_cacert c1 m) as [[[? ?] ?]|]; cbn [bind] in R2; discriminate.
Qed.
End S.
