(** Serving CoAP messages: options, block-wise upload, answers. *)
From Coq Require Import String ZArith List Bool Lia ZifyBool ZifyNat.
From Verif Require Import Base Spec.Base64 Spec.Coap Spec.CoapHistory Model.CLib Model.EstErr Model.Codec Model.Coap
  Proofs.Codec Proofs.CoapCbor Proofs.CoapTable Proofs.CoapRun.
Import ListNotations.
Open Scope Z_scope.
Ltac Zify.zify_post_hook ::= Z.to_euclidean_division_equations.

(** ** Options *)
Lemma uint_fold : forall v n, all_bytes v -> 0 <= n < 256 ^ 4 ->
  n * 256 ^ len v + 256 ^ len v <= 256 ^ 4 ->
  fold_left (fun n b => (n * 256 + b) mod 4294967296) v n = fold_left (fun n x => n * 256 + x) v n
  /\ 0 <= fold_left (fun n x => n * 256 + x) v n.
Proof.
  induction v as [|b v IH]; intros n Hv Hn Hb; [cbn; lia|].
  cbn [fold_left]. inversion Hv as [|? ? B Hv']; subst. 
  pose proof (len_nonneg _ v) as L.
  assert (E : 256 ^ len (b :: v) = 256 * 256 ^ len v).
  { replace (len (b :: v)) with (Z.succ (len v)) by (rewrite len_cons; lia). apply Z.pow_succ_r. lia. }
  rewrite E in Hb. clear E.
  assert (P : 0 < 256 ^ len v) by (apply Z.pow_pos_nonneg; lia).
  assert (M : (n * 256 + b) mod 4294967296 = n * 256 + b).
  { apply Z.mod_small. split; [unfold is_byte in B; lia|]. change (256 ^ 4) with 4294967296 in *. unfold is_byte in B. nia. }
  rewrite M. apply IH; [assumption|change (256 ^ 4) with 4294967296 in *; unfold is_byte in B; nia|unfold is_byte in B; nia].
Qed.
Lemma decode_uint : forall v, all_bytes v -> len v <= 4 -> decode_var_bytes v = uint_value v.
Proof.
  intros v Hv L. unfold decode_var_bytes, uint_value. apply uint_fold; [assumption|lia|].
  rewrite Z.mul_0_l, Z.add_0_l. apply Z.pow_le_mono_r; lia.
Qed.

Definition verdict_of (e : est_error) : Z :=
  match e with
  | EST_ERR_NONE => 0 | EST_ERR_BAD_CONTENT_TYPE => 402
  | EST_ERR_HTTP_BAD_REQ => 400 | EST_ERR_HTTP_UNSUPPORTED => 406 | _ => 500
  end.
Definition option_error (e : est_error) : Prop :=
  e = EST_ERR_NONE \/ e = EST_ERR_BAD_CONTENT_TYPE \/ e = EST_ERR_HTTP_BAD_REQ \/ e = EST_ERR_HTTP_UNSUPPORTED.

Lemma check_option : forall opts ty media, short_options opts -> ty = 12 \/ ty = 17 ->
  verdict_of (est_coap_check_option opts ty media)
  = option_verdict (values ty opts) (if ty =? 12 then 402 else 0) media (if ty =? 12 then 400 else 406).
Proof.
  intros opts ty media S T. unfold est_coap_check_option, values, COAP_OPTION_ACCEPT, COAP_OPTION_CONTENT_TYPE, COAP_CONTENT_TYPE_MAX.
  assert (F : forall o, In o (filter (fun o => fst o =? ty) opts) -> decode_var_bytes (snd o) = uint_value (snd o)).
  { intros o H. apply filter_In in H as [H _]. destruct (S o H). now apply decode_uint. }
  destruct (filter (fun o => fst o =? ty) opts) as [|o more]; cbn [map option_verdict].
  - destruct T as [-> | ->]; reflexivity.
  - rewrite F by now left. destruct (uint_value (snd o) =? media); cbn [negb].
    + destruct more; reflexivity.
    + destruct (65535 <? uint_value (snd o)); [reflexivity|]. destruct T as [-> | ->]; reflexivity.
Qed.
Lemma content_ok : forall opts, short_options opts ->
  est_coap_check_option opts COAP_OPTION_CONTENT_TYPE COAP_MEDIA_TYPE_PKCS10 = EST_ERR_NONE <-> values 12 opts = [286].
Proof.
  intros opts S. pose proof (check_option opts 12 286 S (or_introl eq_refl)) as C.
  unfold COAP_OPTION_CONTENT_TYPE, COAP_MEDIA_TYPE_PKCS10.
  split; intro H.
  - rewrite H in C. cbn [verdict_of option_verdict Z.eqb Pos.eqb] in C. destruct (values 12 opts) as [|v more]; [discriminate|].
    cbn [option_verdict] in C. destruct (v =? 286) eqn:E; [|destruct (65535 <? v); discriminate].
    destruct more; [|discriminate]. f_equal. lia.
  - rewrite H in C. cbn in C. unfold verdict_of in C.
    destruct (est_coap_check_option opts 12 286); try discriminate C. reflexivity.
Qed.
Lemma accept_ok : forall opts media, short_options opts ->
  est_coap_check_option opts COAP_OPTION_ACCEPT media = EST_ERR_NONE <-> values 17 opts = [] \/ values 17 opts = [media].
Proof.
  intros opts media S. pose proof (check_option opts 17 media S (or_intror eq_refl)) as C. unfold COAP_OPTION_ACCEPT.
  split; intro H.
  - rewrite H in C. cbn [verdict_of option_verdict Z.eqb Pos.eqb] in C. destruct (values 17 opts) as [|v more]; [now left|right].
    cbn [option_verdict] in C. destruct (v =? media) eqn:E; [|destruct (65535 <? v); discriminate].
    destruct more; [|discriminate]. f_equal. lia.
  - assert (Z0 : verdict_of (est_coap_check_option opts 17 media) = 0).
    { rewrite C. destruct H as [-> | ->]; [reflexivity|]. cbn. now rewrite Z.eqb_refl. }
    unfold verdict_of in Z0. destruct (est_coap_check_option opts 17 media); try discriminate Z0. reflexivity.
Qed.

(** ** The DTLS timer *)
Lemma timer_values : forall initial, 2 <= initial <= 60 -> forall k : nat,
  Nat.iter k (est_coap_dtls_timer_callback initial) (est_coap_dtls_timer_callback initial 0)
  = Z.min 60000000 (initial * 1000000 * 2 ^ Z.of_nat k).
Proof.
  intros initial Hi. assert (B : forall v, 2000000 <= v <= 60000000 ->
    est_coap_dtls_timer_callback initial v = Z.min 60000000 (2 * v)).
  { intros v Hv. unfold est_coap_dtls_timer_callback. replace (v =? 0) with false by lia.
    assert (T : to_int (2 * v) = 2 * v).
    { unfold to_int. rewrite Z.mod_small by lia. lia. }
    rewrite T. cbv zeta. destruct (60000000 <? 2 * v) eqn:E; rewrite Z.mod_small by lia; lia. }
  induction k as [|k IH].
  - cbn [Nat.iter nat_rect]. unfold est_coap_dtls_timer_callback. cbn [Z.eqb]. cbv zeta.
    change (Z.of_nat 0) with 0. change (2 ^ 0) with 1.
    destruct (60000000 <? initial * 1000 * 1000) eqn:E; rewrite Z.mod_small by lia; lia.
  - change (Nat.iter (S k) (est_coap_dtls_timer_callback initial) (est_coap_dtls_timer_callback initial 0))
      with (est_coap_dtls_timer_callback initial (Nat.iter k (est_coap_dtls_timer_callback initial) (est_coap_dtls_timer_callback initial 0))).
    rewrite IH. assert (P : 1 <= 2 ^ Z.of_nat k) by (change 1 with (2 ^ 0); apply Z.pow_le_mono_r; lia).
    replace (2 ^ Z.of_nat (S k)) with (2 * 2 ^ Z.of_nat k).
    2: { replace (Z.of_nat (S k)) with (Z.succ (Z.of_nat k)) by lia. rewrite Z.pow_succ_r; lia. }
    rewrite B by nia. nia.
Qed.

(** ** Nodes *)
Record sound (n : node) : Prop := {
  w_req : len (q_req n) = 16384;
  w_resp : len (q_resp n) = 16384;
  w_len : 0 <= q_len n <= 16384
}.
Definition begun (n : node) : Prop := nth 0 (q_req n) 0 <> 0.
(** Ready to take a new request: the handler will not answer from a stored response. *)
Definition ready (n : node) : Prop := begun n \/ nth 0 (q_resp n) 0 = 0.

Lemma zero_buf_len : len zero_buf = 16384.
Proof. unfold len, zero_buf, COAP_REQ_NODE_BUF_LEN_MAX. rewrite repeat_length. reflexivity. Qed.
Lemma zero_buf_0 : nth 0 zero_buf 0 = 0.
Proof. reflexivity. Qed.

Lemma reinit_sound : forall n op, sound (reinit_coap_req n op).
Proof. intros. constructor; cbn [reinit_coap_req q_req q_resp q_len]; try apply zero_buf_len; lia. Qed.
Lemma fresh_sound : forall k op, sound (fresh k op).
Proof. intros. constructor; cbn [fresh set_op zero_node q_req q_resp q_len]; try apply zero_buf_len; lia. Qed.

Lemma blit_some : forall b off d b', blit b off d = Ok b' ->
  0 <= off /\ off + len d <= len b /\ len b' = len b
  /\ b' = firstn (Z.to_nat off) b ++ d ++ skipn (Z.to_nat (off + len d)) b.
Proof.
  intros b off d b' H. unfold blit in H. destruct ((off <? 0) || (len b <? off + len d)) eqn:E; [discriminate|].
  inversion H; subst. split; [lia|]. split; [lia|]. split; [|reflexivity].
  pose proof (len_nonneg _ d). rewrite !len_app. unfold len in *. rewrite firstn_length, skipn_length. lia.
Qed.

Lemma store_some : forall n off d n', store n off d = Ok n' ->
  exists b, blit (q_req n) off d = Ok b /\ n' = set_req n b (off + len d).
Proof. intros n off d n' H. unfold store in H. apply bind_ok in H as (b & B & H). inversion H. eauto. Qed.
Lemma store_sound : forall n off d n', sound n -> store n off d = Ok n' -> sound n'.
Proof.
  intros n off d n' [R P L] H. apply store_some in H as (b & B & ->). apply blit_some in B as (H1 & H2 & H3 & _).
  pose proof (len_nonneg _ d). constructor; cbn [set_req q_req q_resp q_len]; lia.
Qed.
Lemma blit_first : forall b off d b', blit b off d = Ok b' -> 0 < len b ->
  nth 0 b' 0 = if (off =? 0) && negb (len d =? 0) then nth 0 d 0 else nth 0 b 0.
Proof.
  intros b off d b' H L. apply blit_some in H as (H1 & H2 & _ & ->). destruct b as [|x b]; [cbn in L; lia|].
  destruct (off =? 0) eqn:E; cbn [andb].
  - replace off with 0 by lia. cbn [Z.to_nat firstn app]. destruct d as [|y d]; [reflexivity|].
    assert (E3 : len (y :: d) =? 0 = false) by (rewrite len_cons; pose proof (len_nonneg _ d); lia).
    rewrite E3. reflexivity.
  - destruct (Z.to_nat off) eqn:E2; [lia|]. reflexivity.
Qed.
Lemma store_begun : forall n off d n', sound n -> store n off d = Ok n' ->
  (d <> [] -> nth 0 d 0 <> 0) -> (begun n \/ off = 0 /\ d <> []) -> begun n'.
Proof.
  intros n off d n' [R _ _] H Hd Hb. apply store_some in H as (b & B & ->). unfold begun. cbn [set_req q_req].
  rewrite (blit_first _ _ _ _ B) by lia. destruct ((off =? 0) && negb (len d =? 0)) eqn:E.
  - apply Hd. intros ->. cbn in E. rewrite andb_false_r in E. discriminate.
  - destruct Hb as [Hb|[-> Hb]]; [exact Hb|]. exfalso. destruct d; [congruence|].
    rewrite len_cons in E. pose proof (len_nonneg _ d). lia.
Qed.

Lemma set_req_sound : forall n b l, sound n -> len b = 16384 -> 0 <= l <= 16384 -> sound (set_req n b l).
Proof. intros n b l [R P L] H1 H2. constructor; cbn [set_req q_req q_resp q_len]; auto. Qed.

(** What the state of a peer satisfies if no payload starts with a zero byte. *)
Record fine (n : node) : Prop := {
  f_sound : sound n;
  f_begun : 0 < q_len n -> begun n;
  f_ready : is_get (q_op n) = false -> ready n
}.
Lemma fresh_fine : forall k op, fine (fresh k op).
Proof. intros. constructor; [apply fresh_sound|cbn; lia|]. intros _. right. reflexivity. Qed.
Lemma reinit_fine : forall n op, fine (reinit_coap_req n op).
Proof. intros. constructor; [apply reinit_sound|cbn; lia|]. intros _. right. reflexivity. Qed.
Lemma refreshed_fine : forall n op, fine n -> fine (refreshed n op).
Proof. intros n op H. unfold refreshed. destruct (_ && _); [apply reinit_fine|exact H]. Qed.
Lemma refreshed_op : forall n op, op <> OpReset -> q_op (refreshed n op) = op.
Proof.
  intros n op H. unfold refreshed. destruct (op_eqb (q_op n) op) eqn:E; cbn [negb andb].
  - destruct (q_op n), op; try discriminate; reflexivity.
  - assert (X : op_eqb op OpReset = false) by (destruct op; try reflexivity; congruence). now rewrite X.
Qed.

Lemma payload_ne : forall m, payload m = true <-> m_payload m <> [].
Proof.
  intro m. unfold payload. destruct (m_payload m) as [|x d]; [cbn; split; congruence|].
  rewrite len_cons. pose proof (len_nonneg _ d). split; [congruence|lia].
Qed.

Lemma take_in_fine : forall m n t, plain m -> sound n -> (0 < q_len n -> begun n) -> nth 0 (q_resp n) 0 = 0 ->
  take_in m n = Ok t ->
  match t with TFail _ n' | TMore _ n' | TDone n' =>
    sound n' /\ (0 < q_len n' -> begun n') /\ nth 0 (q_resp n') 0 = 0 /\ q_op n' = q_op n end.
Proof.
  intros m n t P S B R H. unfold take_in in H. destruct (m_block1 m) as [b|].
  - destruct (payload m) eqn:Pm.
    + apply payload_ne in Pm. destruct (Z.shiftl (b_num b) (b_szx b + 4) =? 0) eqn:E0.
      * apply bind_ok in H as (n1 & St & H).
        assert (S1 : sound (set_req n (if negb (nth 0 (q_req n) 0 =? 0) then zero_buf else q_req n) 0)).
        { apply set_req_sound; [exact S| |lia]. destruct (negb (nth 0 (q_req n) 0 =? 0)); [apply zero_buf_len|apply (w_req _ S)]. }
        pose proof (store_sound _ _ _ _ S1 St) as S2.
        pose proof (store_begun _ _ _ _ S1 St P (or_intror (conj eq_refl Pm))) as B2.
        apply store_some in St as (buf & _ & ->).
        destruct (b_more b); inversion H; subst; cbn [set_req q_resp q_op]; auto.
      * destruct (q_len n <? _) eqn:E1; [inversion H; subst; auto|].
        destruct (_ <? q_len n) eqn:E2; [destruct (b_more b); inversion H; subst; auto|].
        apply bind_ok in H as (n1 & St & H).
        pose proof (store_sound _ _ _ _ S St) as S2.
        assert (Bn : begun n) by (apply B; destruct S; lia).
        pose proof (store_begun _ _ _ _ S St P (or_introl Bn)) as B2.
        apply store_some in St as (buf & _ & ->).
        destruct (b_more b); inversion H; subst; cbn [set_req q_resp q_op]; auto.
    + destruct (b_more b); inversion H; subst; auto.
  - destruct (payload m) eqn:Pm.
    + apply payload_ne in Pm. apply bind_ok in H as (n1 & St & H).
      pose proof (store_sound _ _ _ _ S St) as S2.
      pose proof (store_begun _ _ _ _ S St P (or_intror (conj eq_refl Pm))) as B2.
      apply store_some in St as (buf & _ & ->). inversion H; subst; cbn [set_req q_resp q_op]; auto.
    + destruct (negb (q_len n =? 0)) eqn:E; [inversion H; subst; auto|]. inversion H; subst. clear H. cbn [set_req q_resp q_op q_len].
      split; [|split; [lia|auto]]. apply set_req_sound; [exact S| |lia]. destruct (negb (nth 0 (q_req n) 0 =? 0)); [apply zero_buf_len|apply (w_req _ S)].
Qed.

Lemma keep_resp_sound : forall n d k, sound n -> keep_resp n d = Ok (Some k) ->
  sound k /\ q_req k = q_req n /\ q_len k = q_len n /\ q_op k = q_op n.
Proof.
  intros n d k S H. unfold keep_resp in H. destruct (_ <? _); [discriminate|]. apply bind_ok in H as (b & B & H).
  inversion H; subst. cbn. split; [|auto]. apply blit_some in B as (_ & _ & L & _).
  destruct S. constructor; cbn; congruence.
Qed.

Section Serve.
Variable bio : bool -> bytes -> Z -> bytes.

Lemma serve_fine : forall m n r a n', fine n -> q_op n = m_op m -> plain m ->
  serve bio m n = Ok (r, a, n') -> fine n' /\ q_op n' = m_op m.
Proof.
  intros m n r a n' F O P H. unfold serve in H. destruct (is_get (m_op m)) eqn:G.
  - unfold serve_get, answer, fail in H.
    assert (FF : forall (x : reply) (y : list action) (w : res (reply * list action * node)),
      w = Ok (x, y, n) -> w = Ok (r, a, n') -> fine n' /\ q_op n' = m_op m) by (intros; split; congruence).
    destruct (negb _); [eapply FF; [reflexivity|exact H]|].
    destruct (est_coap_check_option _ _ _); try (eapply FF; [reflexivity|exact H]).
    destruct (negb (err_eqb _ _)); [eapply FF; [reflexivity|exact H]|].
    destruct (o_text _); [|eapply FF; [reflexivity|exact H]].
    apply bind_ok in H as ([d|] & _ & H); [|eapply FF; [reflexivity|exact H]].
    apply bind_ok in H as ([k|] & K & H); [|eapply FF; [reflexivity|exact H]].
    destruct F as [S B R]. destruct (keep_resp_sound _ _ _ S K) as (S2 & E1 & E2 & E3).
    inversion H; subst. split; [|congruence]. constructor; [exact S2|unfold begun; rewrite E1, E2; exact B|].
    rewrite E3, O, G. discriminate.
  - unfold serve_enroll, answer, fail in H. cbv zeta in H.
    match type of H with context [if ?c then reinit_coap_req n (m_op m) else n] =>
      set (n1 := if c then reinit_coap_req n (m_op m) else n) in H end.
    assert (F1 : fine n1) by (unfold n1; destruct (_ && _); [apply reinit_fine|exact F]).
    assert (O1 : q_op n1 = m_op m) by (unfold n1; destruct (_ && _); [reflexivity|exact O]).
    clearbody n1.
    destruct (negb (nth 0 (q_resp n1) 0 =? 0)) eqn:E; [inversion H; subst; auto|].
    assert (FF : forall (x : reply) (y : list action) (n0 : node), sound n0 -> (0 < q_len n0 -> begun n0) ->
      nth 0 (q_resp n0) 0 = 0 -> q_op n0 = m_op m -> Ok (x, y, n0) = Ok (r, a, n') -> fine n' /\ q_op n' = m_op m).
    { intros x y n0 H1 H2 H3 H4 H5. inversion H5; subst. split; [|exact H4]. constructor; auto. intros _. now right. }
    assert (E' : nth 0 (q_resp n1) 0 = 0) by lia.
    destruct (est_coap_check_option _ _ _); try (eapply FF; [| | | |exact H]; try apply F1; assumption).
    apply bind_ok in H as (t & T & H). apply take_in_fine in T; try assumption; try apply F1.
    destruct t as [c x|b x|x]; destruct T as (T1 & T2 & T3 & T4); rewrite O1 in T4.
    + eapply FF; [| | | |exact H]; assumption.
    + eapply FF; [| | | |exact H]; assumption.
    + destruct (q_len x <=? 0) eqn:Ex; [eapply FF; [| | | |exact H]; assumption|].
      apply bind_ok in H as ((l, blk) & _ & H). destruct (l <=? 0); [eapply FF; [| | | |exact H]; assumption|].
      destruct (negb (err_eqb _ _)); [eapply FF; [| | | |exact H]; assumption|].
      apply bind_ok in H as ([d|] & _ & H); [|eapply FF; [| | | |exact H]; assumption].
      apply bind_ok in H as ([k|] & K & H); [|eapply FF; [| | | |exact H]; assumption].
      destruct (keep_resp_sound _ _ _ T1 K) as (S2 & E1 & E2 & E3). inversion H; subst.
      split; [|congruence]. assert (Bx : begun x) by (apply T2; lia).
      constructor; [exact S2|intros _; unfold begun; now rewrite E1|]. intros _. left. unfold begun. now rewrite E1.
Qed.

End Serve.
