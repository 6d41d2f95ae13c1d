(** Block-wise upload. *)
From Coq Require Import String ZArith List Bool Lia ZifyBool ZifyNat.
From Verif Require Import Base Spec.Base64 Spec.Coap Spec.CoapHistory Model.CLib Model.EstErr Model.Codec Model.Coap
  Proofs.EstErr Proofs.Codec Proofs.CoapCbor Proofs.CoapTable Proofs.CoapRun Proofs.CoapServe.
Import ListNotations.
Open Scope Z_scope.
Ltac Zify.zify_post_hook ::= Z.to_euclidean_division_equations.

(** ** Blocks of data *)
Lemma bs_pos : forall szx, 0 <= szx -> 16 <= block_size szx.
Proof. intros. unfold block_size. change 16 with (2 ^ 4). apply Z.pow_le_mono_r; lia. Qed.

Lemma last_bounds : forall szx data, 0 <= szx -> 1 <= len data ->
  0 <= last_block szx data /\ last_block szx data * block_size szx < len data <= (last_block szx data + 1) * block_size szx.
Proof.
  intros szx data H L. pose proof (bs_pos szx H). unfold last_block.
  pose proof (Z.div_mod (len data - 1) (block_size szx)). pose proof (Z.mod_pos_bound (len data - 1) (block_size szx)).
  split; [apply Z.div_pos; lia|]. nia.
Qed.

Lemma firstn_block : forall szx k data, 0 <= szx -> 0 <= k ->
  firstn (Z.to_nat (k * block_size szx)) data ++ block_data szx k data = firstn (Z.to_nat ((k + 1) * block_size szx)) data.
Proof.
  intros szx k data H Hk. pose proof (bs_pos szx H). unfold block_data.
  replace (Z.to_nat ((k + 1) * block_size szx)) with (Z.to_nat (k * block_size szx) + Z.to_nat (block_size szx))%nat by nia.
  generalize (Z.to_nat (k * block_size szx)) (Z.to_nat (block_size szx)). clear. intros a b. revert a.
  induction data as [|x data IH]; intro a; [now rewrite !firstn_nil, skipn_nil, firstn_nil|].
  destruct a as [|a]; [reflexivity|]. cbn. f_equal. apply IH.
Qed.

Lemma block_len : forall szx k data, 0 <= szx -> 1 <= len data -> 0 <= k <= last_block szx data ->
  len (block_data szx k data) = Z.min (block_size szx) (len data - k * block_size szx) /\ 1 <= len (block_data szx k data).
Proof.
  intros szx k data H L Hk. pose proof (bs_pos szx H). pose proof (last_bounds szx data H L).
  assert (E : len (block_data szx k data) = Z.min (block_size szx) (len data - k * block_size szx)).
  { unfold block_data, len in *. rewrite firstn_length, skipn_length. nia. }
  split; [exact E|]. rewrite E. nia.
Qed.

Lemma shift_block : forall k szx, 0 <= szx -> Z.shiftl k (szx + 4) = k * block_size szx.
Proof. intros. unfold block_size. apply Z.shiftl_mul_pow2. lia. Qed.

(** ** Storing *)
Lemma firstn_app_exact : forall (a b : bytes), firstn (Z.to_nat (len a)) (a ++ b) = a.
Proof. intros. unfold len. rewrite Nat2Z.id, firstn_app, firstn_all, Nat.sub_diag. cbn. apply app_nil_r. Qed.

Lemma blit_data : forall b off d b' pre, blit b off d = Ok b' -> firstn (Z.to_nat off) b = pre ->
  firstn (Z.to_nat (off + len d)) b' = pre ++ d.
Proof.
  intros b off d b' pre H P. apply blit_some in H as (H1 & H2 & _ & ->). rewrite P.
  replace (off + len d) with (len (pre ++ d)).
  - rewrite app_assoc. apply firstn_app_exact.
  - rewrite len_app. f_equal. pose proof (len_nonneg _ d). subst pre. unfold len in *. rewrite firstn_length. lia.
Qed.

Lemma take_store : forall m n b pre, sound n -> m_block1 m = Some b -> m_payload m <> [] ->
  let off := Z.shiftl (b_num b) (b_szx b + 4) in
  (off = 0 /\ pre = [] \/ 0 < off /\ off = q_len n /\ firstn (Z.to_nat off) (q_req n) = pre) ->
  off + len (m_payload m) <= 16384 ->
  exists n', take_in m n = Ok (if b_more b then TMore b n' else TDone n') /\ sound n'
    /\ q_len n' = off + len (m_payload m) /\ firstn (Z.to_nat (q_len n')) (q_req n') = pre ++ m_payload m
    /\ q_resp n' = q_resp n /\ q_op n' = q_op n.
Proof.
  intros m n b pre S Hb Hp off Ho L. unfold take_in. rewrite Hb. fold off. cbv zeta.
  assert (Pm : payload m = true) by now apply payload_ne. rewrite Pm.
  assert (ST : forall x p0, sound x -> firstn (Z.to_nat off) (q_req x) = p0 -> 0 <= off ->
    exists n', store x off (m_payload m) = Ok n' /\ sound n' /\ q_len n' = off + len (m_payload m)
      /\ firstn (Z.to_nat (q_len n')) (q_req n') = p0 ++ m_payload m /\ q_resp n' = q_resp x /\ q_op n' = q_op x).
  { intros x p0 Sx Px H0. unfold store. pose proof (w_req _ Sx) as W.
    destruct (blit (q_req x) off (m_payload m)) as [buf|] eqn:B; [|rewrite blit_ok in B by lia; discriminate].
    eexists. split; [reflexivity|]. assert (St : store x off (m_payload m) = Ok (set_req x buf (off + len (m_payload m)))).
    { unfold store. now rewrite B. }
    split; [exact (store_sound _ _ _ _ Sx St)|]. cbn [set_req q_len q_req q_resp q_op]. repeat split.
    apply (blit_data _ _ _ _ _ B Px). }
  destruct Ho as [[E ->]|(E & E2 & E3)].
  - rewrite E, Z.eqb_refl.
    set (x := set_req n (if negb (nth 0 (q_req n) 0 =? 0) then zero_buf else q_req n) 0).
    assert (Sx : sound x).
    { apply set_req_sound; [exact S| |lia]. destruct (negb (nth 0 (q_req n) 0 =? 0)); [apply zero_buf_len|apply (w_req _ S)]. }
    destruct (ST x [] Sx) as (n' & St & R); [rewrite E; reflexivity|lia|]. rewrite E in St. rewrite St. cbn [bind].
    rewrite E in R. exists n'. split; [reflexivity|exact R].
  - replace (off =? 0) with false by lia. rewrite <- E2. replace (off <? off) with false by lia.
    destruct (ST n pre S E3) as (n' & -> & R); [lia|]. cbn [bind]. exists n'. split; [reflexivity|exact R].
Qed.

Lemma take_again : forall m n b, m_block1 m = Some b -> m_payload m <> [] ->
  0 < Z.shiftl (b_num b) (b_szx b + 4) < q_len n ->
  take_in m n = Ok (if b_more b then TMore b n else TDone n).
Proof.
  intros m n b Hb Hp H. unfold take_in. rewrite Hb. cbv zeta. assert (Pm : payload m = true) by now apply payload_ne.
  rewrite Pm. set (off := Z.shiftl _ _) in *. replace (off =? 0) with false by lia.
  replace (q_len n <? off) with false by lia. replace (off <? q_len n) with true by lia. reflexivity.
Qed.
Lemma take_gap : forall m n b, m_block1 m = Some b -> m_payload m <> [] -> 0 <= q_len n ->
  q_len n < Z.shiftl (b_num b) (b_szx b + 4) ->
  take_in m n = Ok (TFail 408 n).
Proof.
  intros m n b Hb Hp H0 H. unfold take_in. rewrite Hb. cbv zeta. assert (Pm : payload m = true) by now apply payload_ne.
  rewrite Pm. set (off := Z.shiftl _ _) in *. replace (off =? 0) with false by lia.
  replace (q_len n <? off) with true by lia. reflexivity.
Qed.

Section Blocks.
Variable bio : bool -> bytes -> Z -> bytes.

Lemma posted_early : forall op m, enrolls op -> posted op m -> early m = None.
Proof.
  intros op m E P. unfold early. rewrite (p_op _ _ P). assert (G : is_get op = false) by (destruct E as [->|[->| ->]]; reflexivity).
  rewrite G, (proj2 (content_ok _ (p_short _ _ P)) (p_content _ _ P)), (p_ssl _ _ P), (p_cert _ _ P). reflexivity.
Qed.
Lemma posted_accept : forall op m, enrolls op -> posted op m ->
  est_coap_check_option (m_opts m) COAP_OPTION_ACCEPT (media_of op) = EST_ERR_NONE.
Proof.
  intros op m E P. apply accept_ok; [apply P|]. pose proof (p_accept _ _ P) as A.
  destruct E as [->|[->| ->]]; exact A.
Qed.

Definition start (m : message) (n0 : node) : node :=
  if negb (nth 0 (q_req n0) 0 =? 0) && payload m && match m_block1 m with Some b => b_num b =? 0 | None => true end
  then reinit_coap_req n0 (m_op m) else n0.

Definition rest (m : message) (a0 : list action) (t : taken) : res (reply * list action * node) :=
  match t with
  | TFail c n1 => fail c a0 n1
  | TMore b n1 =>
    Ok ({| r_code := 231; r_body := None;
           r_block1 := Some (Z.lor (Z.lor (Z.shiftl (b_num b) 4) 8) (b_szx b)) |}, a0, n1)
  | TDone n1 =>
    if q_len n1 <=? 0 then fail 400 a0 n1
    else
      let csr := firstn (Z.to_nat (q_len n1)) (q_req n1) in
      ' (l, blk) <- est_base64_encode csr (repeat 0 (Z.to_nat (len csr * 2))) (len csr * 2) true ;;
      if l <=? 0 then fail 500 a0 n1
      else
        let text := firstn (Z.to_nat l) blk in
        let o := m_env m (m_op m) text in
        let a1 := a0 ++ [AEnrollReq csr; ACall (m_op m) text; AEnrollRsp csr (o_rc o)] in
        if negb (err_eqb (o_rc o) EST_ERR_NONE) then fail (enroll_code (o_rc o)) a1 n1
        else
          d <- enroll_payload bio (m_op m) o ;;
          match d with
          | None => fail 500 a1 n1
          | Some d =>
            k <- keep_resp n1 d ;;
            match k with
            | None => fail 500 a1 n1
            | Some n2 => answer 204 m n2 a1
            end
          end
  end.
Definition first_act (n : node) : list action := if nth 0 (q_req n) 0 =? 0 then [AStart] else [].

Lemma serve_take : forall op m n0, enrolls op -> posted op m -> nth 0 (q_resp (start m n0)) 0 = 0 ->
  serve bio m n0 = (t <- take_in m (start m n0) ;; rest m (first_act (start m n0)) t).
Proof.
  intros op m n0 E P R. unfold serve. assert (G : is_get (m_op m) = false) by (rewrite (p_op _ _ P); destruct E as [->|[->| ->]]; reflexivity).
  rewrite G. unfold serve_enroll. cbv zeta. fold (start m n0). rewrite R. cbn [Z.eqb negb].
  assert (A : est_coap_check_option (m_opts m) COAP_OPTION_ACCEPT (media_of (m_op m)) = EST_ERR_NONE).
  { rewrite (p_op _ _ P). now apply posted_accept. }
  rewrite A. reflexivity.
Qed.

Lemma calls_app : forall a b, calls (a ++ b) = calls a ++ calls b.
Proof. induction a as [|[| | | |] a IH]; intro b; cbn; rewrite ?IH; reflexivity. Qed.
Lemma calls_first : forall n, calls (first_act n) = [].
Proof. intro n. unfold first_act. now destruct (_ =? 0). Qed.

(** The upload complete. *)
Record complete (data : bytes) (n : node) : Prop := {
  c_sound : sound n;
  c_len : q_len n = len data;
  c_data : firstn (Z.to_nat (q_len n)) (q_req n) = data;
  c_resp : nth 0 (q_resp n) 0 = 0
}.

Lemma rest_shape : forall m n data a0, complete data n -> 5 <= len data ->
  let t := b64_wrap (b64_encode data) in
  let o := m_env m (m_op m) t in
  let a1 := a0 ++ [AEnrollReq data; ACall (m_op m) t; AEnrollRsp data (o_rc o)] in
  rest m a0 (TDone n) =
    if negb (err_eqb (o_rc o) EST_ERR_NONE) then fail (enroll_code (o_rc o)) a1 n
    else
      d <- enroll_payload bio (m_op m) o ;;
      match d with
      | None => fail 500 a1 n
      | Some d =>
        k <- keep_resp n d ;;
        match k with
        | None => fail 500 a1 n
        | Some n2 => answer 204 m n2 a1
        end
      end.
Proof.
  intros m n data a0 [S L D _] H5 t o a1. cbn [rest]. replace (q_len n <=? 0) with false by lia.
  rewrite D. replace (len data * 2) with (2 * len data) by lia.
  rewrite (encode_twice data _ true H5) by (unfold len; rewrite repeat_length; lia).
  cbv zeta. cbn [bind]. fold t.
  assert (T : 1 <= len t).
  { unfold t. destruct data as [|x data']; [cbn in H5; lia|]. pose proof (b64_encode_len (x :: data')) as EL.
    rewrite (b64_wrap_len (length (b64_encode (x :: data')))) by lia. set (w := len (b64_encode (x :: data'))) in *. lia. }
  replace (len t <=? 0) with false by lia. rewrite firstn_app_exact. reflexivity.
Qed.

Lemma rest_done : forall m n data a0 r a n', complete data n ->
  5 <= len data -> calls a0 = [] ->
  rest m a0 (TDone n) = Ok (r, a, n') ->
  calls a = [(m_op m, b64_wrap (b64_encode data))].
Proof.
  intros m n data a0 r a n' K H5 A0 H. rewrite (rest_shape m n data a0 K H5) in H. cbv zeta in H.
  set (t := b64_wrap (b64_encode data)) in *.
  assert (C : forall o, calls (a0 ++ [AEnrollReq data; ACall (m_op m) t; AEnrollRsp data (o_rc o)]) = [(m_op m, t)]).
  { intro o. rewrite calls_app, A0. reflexivity. }
  unfold fail, answer in H.
  assert (FF : forall (x : reply) (y : node) o e, Ok (x, (a0 ++ [AEnrollReq data; ACall (m_op m) t; AEnrollRsp data (o_rc o)]) ++ e, y) = Ok (r, a, n') ->
    calls e = [] -> calls a = [(m_op m, t)]).
  { intros x y o e Q Ee. apply (f_equal (fun z => match z with Ok (_, q, _) => calls q | UB => [] end)) in Q.
    rewrite calls_app, Ee, app_nil_r, C in Q. now symmetry. }
  destruct (negb (err_eqb _ _)); [eapply FF; [exact H|reflexivity]|].
  apply bind_ok in H as ([d|] & _ & H); [|eapply FF; [exact H|reflexivity]].
  apply bind_ok in H as ([k|] & _ & H); [|eapply FF; [exact H|reflexivity]].
  eapply FF; [exact H|]. now destruct (m_more2 m).
Qed.

Lemma stored_kept : forall m n d n2 k, keep_resp n d = Ok (Some n2) -> sound n ->
  stored_resp k m n2 = {| r_code := k; r_body := Some (media_of (m_op m), d); r_block1 := None |}
  /\ q_rlen n2 = len d /\ firstn (Z.to_nat (len d)) (q_resp n2) = d.
Proof.
  intros m n d n2 k H S. unfold keep_resp in H. destruct (_ <? _); [discriminate|]. apply bind_ok in H as (b & B & H).
  inversion H; subst. apply (blit_data _ _ _ _ []) in B; [|reflexivity]. cbn [app] in B. rewrite Z.add_0_l in B.
  unfold stored_resp. cbn [set_resp q_rlen q_resp]. rewrite B. auto.
Qed.
Lemma keep_fits : forall n d, sound n -> len d <= 16384 -> exists n2, keep_resp n d = Ok (Some n2).
Proof.
  intros n d S L. unfold keep_resp, COAP_REQ_NODE_BUF_LEN_MAX. replace (16384 <? len d) with false by lia.
  rewrite blit_ok; [cbn [bind]; eauto|lia|]. rewrite (w_resp _ S). lia.
Qed.

(** How a completed request is answered, and the response kept. *)
Record completed (m : message) (op : coap_op) (data : bytes) (r : reply) (n' : node) : Prop := {
  k_fail : let o := m_env m op (b64_wrap (b64_encode data)) in
    o_rc o <> EST_ERR_NONE -> r = code (enroll_code (o_rc o));
  k_done : let o := m_env m op (b64_wrap (b64_encode data)) in
    forall d, o_rc o = EST_ERR_NONE -> enroll_payload bio op o = Ok (Some d) -> len d <= 16384 ->
    r = {| r_code := 204; r_body := Some (media_of op, d); r_block1 := None |}
    /\ q_rlen n' = len d /\ firstn (Z.to_nat (len d)) (q_resp n') = d /\ q_op n' = op;
  k_none : let o := m_env m op (b64_wrap (b64_encode data)) in
    o_rc o = EST_ERR_NONE -> enroll_payload bio op o = Ok None -> r = code 500
}.
Lemma rest_completed : forall op m n data a0 r a n', m_op m = op -> complete data n -> q_op n = op -> 5 <= len data ->
  rest m a0 (TDone n) = Ok (r, a, n') -> completed m op data r n'.
Proof.
  intros op m n data a0 r a n' O K On H5 H. rewrite (rest_shape m n data a0 K H5) in H. cbv zeta in H. rewrite O in H.
  set (o := m_env m op (b64_wrap (b64_encode data))) in *.
  constructor; fold o; cbv zeta.
  - intro E. assert (X : err_eqb (o_rc o) EST_ERR_NONE = false).
    { destruct (err_eqb (o_rc o) EST_ERR_NONE) eqn:X; [|reflexivity]. exfalso. apply E. now apply err_eqb_eq. }
    rewrite X in H. cbn [negb] in H. unfold fail in H. now inversion H.
  - intros d E P L. rewrite E in H. cbn [err_eqb negb] in H. rewrite P in H. cbn [bind] in H.
    destruct (keep_fits n d (c_sound _ _ K) L) as (n2 & KR). rewrite KR in H. cbn [bind] in H. unfold answer in H.
    destruct (stored_kept m n d n2 204 KR (c_sound _ _ K)) as (E1 & E2 & E3).
    destruct (keep_resp_sound _ _ _ (c_sound _ _ K) KR) as (_ & _ & _ & E4).
    inversion H; subst. rewrite E1. repeat split; auto; congruence.
  - intros E P. rewrite E in H. cbn [err_eqb negb] in H. rewrite P in H. cbn [bind] in H. unfold fail in H. now inversion H.
Qed.

(** ** The state after the blocks up to [hi] *)
Record has (szx hi : Z) (data : bytes) (n : node) : Prop := {
  s_sound : sound n;
  s_resp : nth 0 (q_resp n) 0 = 0;
  s_len : q_len n = (hi + 1) * block_size szx;
  s_data : firstn (Z.to_nat (q_len n)) (q_req n) = firstn (Z.to_nat (q_len n)) data
}.

Lemma start_other : forall m n k szx data, carries szx k data m -> k <> 0 -> start m n = n.
Proof.
  intros m n k szx data [B _] H. unfold start. rewrite B. cbn [b_num]. replace (k =? 0) with false by lia.
  rewrite andb_false_r. reflexivity.
Qed.
Lemma start_ready : forall m n, ready n -> sound n -> m_payload m <> [] ->
  match m_block1 m with Some b => b_num b = 0 | None => True end ->
  sound (start m n) /\ nth 0 (q_resp (start m n)) 0 = 0 /\ (q_op n = m_op m -> q_op (start m n) = m_op m).
Proof.
  intros m n R S P B. unfold start. apply payload_ne in P. rewrite P.
  assert (E : match m_block1 m with Some b => b_num b =? 0 | None => true end = true).
  { destruct (m_block1 m); [|reflexivity]. lia. }
  rewrite E. destruct (nth 0 (q_req n) 0 =? 0) eqn:Z0; cbn [negb andb].
  - split; [exact S|]. split; [|auto]. destruct R as [R|R]; [unfold begun in R; lia|exact R].
  - split; [apply reinit_sound|]. split; [reflexivity|reflexivity].
Qed.

Definition echo (szx k : Z) : option Z := Some (Z.lor (Z.lor (Z.shiftl k 4) 8) szx).
Lemma lor_add : forall a b k, 0 <= k -> 0 <= b < 2 ^ k -> Z.lor (a * 2 ^ k) b = a * 2 ^ k + b.
Proof.
  intros a b k Hk Hb. assert (L : Z.land (a * 2 ^ k) b = 0).
  { apply Z.bits_inj'. intros i Hi. rewrite Z.land_spec, Z.bits_0, Z.mul_pow2_bits by lia.
    destruct (Z.ltb_spec i k); [rewrite Z.testbit_neg_r by lia; reflexivity|].
    assert (T : Z.testbit b i = false).
    { destruct (Z.eq_dec b 0) as [->|N0]; [apply Z.bits_0|]. apply Z.bits_above_log2; [lia|].
      assert (Z.log2 b < k) by (apply Z.log2_lt_pow2; lia). lia. }
    rewrite T. apply andb_false_r. }
  now rewrite Z.add_nocarry_lxor, Z.lxor_lor.
Qed.
Lemma echo_value : forall szx k, 0 <= szx < 8 -> echo szx k = Some (block_option szx k true).
Proof.
  intros szx k H. unfold echo, block_option. f_equal. rewrite Z.shiftl_mul_pow2 by lia.
  assert (E : Z.lor 8 szx = 8 + szx).
  { assert (C : szx = 0 \/ szx = 1 \/ szx = 2 \/ szx = 3 \/ szx = 4 \/ szx = 5 \/ szx = 6 \/ szx = 7) by lia.
    repeat destruct C as [->|C]; try reflexivity. now rewrite C. }
  rewrite <- Z.lor_assoc, E, lor_add by lia. lia.
Qed.

Section Upload.
Variables (op : coap_op) (szx : Z) (data : bytes).
Hypothesis Hop : enrolls op.
Hypothesis Hszx : 0 <= szx <= 6.
Hypothesis Hdata : 5 <= len data <= 16384.
Notation last := (last_block szx data).
Notation bs := (block_size szx).

Lemma data_ne : forall m k, 0 <= k <= last -> carries szx k data m -> m_payload m <> [].
Proof.
  intros m k Hk [_ P] E. destruct (block_len szx k data) as [_ L]; [lia|lia|lia|]. rewrite P in E. rewrite E in L. cbn in L. lia.
Qed.

(** First block. *)
Lemma serve_first : forall m n, 0 < last -> posted op m -> carries szx 0 data m -> sound n -> ready n ->
  exists r a n', serve bio m n = Ok (r, a, n') /\ has szx 0 data n' /\ r_code r = 231 /\ r_body r = None /\ r_block1 r = echo szx 0 /\ calls a = [].
Proof.
  intros m n HL P C S R. pose proof (data_ne m 0 ltac:(lia) C) as NE. pose proof (bs_pos szx ltac:(lia)) as BS.
  destruct (block_len szx 0 data ltac:(lia) ltac:(lia) ltac:(lia)) as [BL _].
  pose proof (last_bounds szx data ltac:(lia) ltac:(lia)) as LB.
  destruct C as [CB CP].
  destruct (start_ready m n R S NE) as (S1 & R1 & _); [now rewrite CB|].
  rewrite (serve_take op m n Hop P R1).
  destruct (take_store m (start m n) _ [] S1 CB NE) as (n' & T & S2 & L2 & D2 & R2 & _).
  { left. cbn [b_num b_szx]. rewrite shift_block by lia. split; [lia|reflexivity]. }
  { cbn [b_num b_szx]. rewrite shift_block by lia. rewrite CP, BL. lia. }
  rewrite T. cbn [b_more bind]. replace (0 <? last) with true by lia. cbn [rest].
  do 3 eexists. split; [reflexivity|]. cbn [r_code r_body r_block1 b_num b_szx b_more] in *. rewrite shift_block in L2 by lia.
  split; [|repeat split; apply calls_first].
  rewrite CP, BL in L2. constructor; [exact S2|now rewrite R2|nia|].
  rewrite D2, CP. cbn [app]. rewrite L2. unfold block_data. replace (Z.to_nat (0 * bs)) with 0%nat by lia. cbn [skipn].
  f_equal. nia.
Qed.

Lemma serve_next : forall m n hi, 0 <= hi -> hi + 1 < last -> posted op m -> carries szx (hi + 1) data m -> has szx hi data n ->
  exists r a n', serve bio m n = Ok (r, a, n') /\ has szx (hi + 1) data n' /\ r_code r = 231 /\ r_body r = None /\ r_block1 r = echo szx (hi + 1) /\ calls a = [].
Proof.
  intros m n hi H0 HL P C H. pose proof (data_ne m (hi + 1) ltac:(lia) C) as NE. pose proof (bs_pos szx ltac:(lia)) as BS.
  destruct (block_len szx (hi + 1) data ltac:(lia) ltac:(lia) ltac:(lia)) as [BL _].
  pose proof (last_bounds szx data ltac:(lia) ltac:(lia)) as LB.
  pose proof (start_other m n _ _ _ C ltac:(lia)) as ST. destruct C as [CB CP]. destruct H as [S R L D].
  rewrite (serve_take op m n Hop P) by (rewrite ST; exact R). rewrite ST.
  destruct (take_store m n _ (firstn (Z.to_nat (q_len n)) data) S CB NE) as (n' & T & S2 & L2 & D2 & R2 & _).
  { right. cbn [b_num b_szx]. rewrite shift_block by lia. rewrite <- D. rewrite L. split; [nia|]. split; reflexivity. }
  { cbn [b_num b_szx]. rewrite shift_block by lia. rewrite CP, BL. nia. }
  rewrite T. cbn [b_more bind]. replace (hi + 1 <? last) with true by lia. cbn [rest].
  do 3 eexists. split; [reflexivity|]. cbn [r_code r_body r_block1 b_num b_szx b_more] in *. rewrite shift_block in L2 by lia.
  split; [|repeat split; apply calls_first].
  constructor; [exact S2|now rewrite R2|rewrite L2, CP, BL; nia|].
  rewrite D2, CP, L2, CP, BL, L, firstn_block by lia. f_equal. nia.
Qed.

Lemma serve_again : forall m n hi k, 1 <= k <= hi -> hi < last -> posted op m -> carries szx k data m -> has szx hi data n ->
  exists r a, serve bio m n = Ok (r, a, n) /\ r_code r = 231 /\ r_body r = None /\ r_block1 r = echo szx k /\ calls a = [].
Proof.
  intros m n hi k Hk HL P C H. pose proof (data_ne m k ltac:(lia) C) as NE. pose proof (bs_pos szx ltac:(lia)) as BS.
  pose proof (start_other m n _ _ _ C ltac:(lia)) as ST. destruct C as [CB CP]. destruct H as [S R L D].
  rewrite (serve_take op m n Hop P) by (rewrite ST; exact R). rewrite ST.
  rewrite (take_again m n _ CB NE).
  2: { cbn [b_num b_szx]. rewrite shift_block by lia. rewrite L. nia. }
  cbn [b_more bind]. replace (k <? last) with true by lia. cbn [rest].
  do 2 eexists. split; [reflexivity|]. repeat split. apply calls_first.
Qed.

Lemma serve_gap : forall m n hi k, 0 <= hi -> hi + 1 < k <= last -> posted op m -> carries szx k data m -> has szx hi data n ->
  exists r a, serve bio m n = Ok (r, a, n) /\ r_code r = 408 /\ r_body r = None /\ r_block1 r = None /\ calls a = [].
Proof.
  intros m n hi k H0 Hk P C H. pose proof (data_ne m k ltac:(lia) C) as NE. pose proof (bs_pos szx ltac:(lia)) as BS.
  pose proof (start_other m n _ _ _ C ltac:(lia)) as ST. destruct C as [CB CP]. destruct H as [S R L D].
  rewrite (serve_take op m n Hop P) by (rewrite ST; exact R). rewrite ST.
  rewrite (take_gap m n _ CB NE).
  2: { nia. }
  2: { cbn [b_num b_szx]. rewrite shift_block by lia. rewrite L. nia. }
  cbn [bind rest]. unfold fail. do 2 eexists. split; [reflexivity|]. repeat split. rewrite calls_app, calls_first. reflexivity.
Qed.

(** The completing block. *)
Lemma serve_last_rest : forall m n, posted op m -> carries szx last data m ->
  (last = 0 /\ sound n /\ ready n \/ 0 < last /\ has szx (last - 1) data n) -> q_op n = op ->
  exists n1 a0, serve bio m n = rest m a0 (TDone n1) /\ complete data n1 /\ calls a0 = [] /\ q_op n1 = op.
Proof.
  intros m n P C H On. pose proof (last_bounds szx data ltac:(lia) ltac:(lia)) as LB.
  pose proof (data_ne m last ltac:(lia) C) as NE. pose proof (bs_pos szx ltac:(lia)) as BS.
  destruct (block_len szx last data ltac:(lia) ltac:(lia) ltac:(lia)) as [BL _].
  assert (ALL : firstn (Z.to_nat (last * bs)) data ++ block_data szx last data = data).
  { rewrite firstn_block by lia. apply firstn_all2. unfold len in *. nia. }
  destruct H as [(H0 & S & R)|(H0 & H)].
  - pose proof C as [CB CP]. destruct (start_ready m n R S NE) as (S1 & R1 & O1); [rewrite CB; cbn; lia|].
    rewrite (serve_take op m n Hop P R1).
    destruct (take_store m (start m n) _ [] S1 CB NE) as (n1 & T & S2 & L2 & D2 & R2 & Ot).
    { left. cbn [b_num b_szx]. rewrite shift_block by lia. rewrite H0. split; reflexivity. }
    { cbn [b_num b_szx]. rewrite shift_block by lia. rewrite CP, BL. nia. }
    rewrite T. cbn [b_more bind]. replace (last <? last) with false by lia.
    cbn [b_num b_szx] in *. rewrite shift_block in * by lia.
    eexists; eexists. split; [reflexivity|]. split; [|split; [apply calls_first|]]. 2: { rewrite Ot. rewrite (p_op _ _ P) in O1. auto. }
     constructor; [exact S2| | |now rewrite R2].
    + rewrite L2, CP, BL. nia.
    + rewrite D2, CP. cbn [app]. rewrite H0 in ALL. rewrite H0. exact ALL.
  - pose proof (start_other m n _ _ _ C ltac:(lia)) as ST. destruct C as [CB CP]. destruct H as [S R L D].
    replace (last - 1 + 1) with last in L by lia.
    rewrite (serve_take op m n Hop P) by (rewrite ST; exact R). rewrite ST.
    destruct (take_store m n _ (firstn (Z.to_nat (q_len n)) data) S CB NE) as (n1 & T & S2 & L2 & D2 & R2 & Ot).
    { right. cbn [b_num b_szx]. rewrite shift_block by lia. rewrite <- D. rewrite L. split; [nia|]. split; reflexivity. }
    { cbn [b_num b_szx]. rewrite shift_block by lia. rewrite CP, BL. nia. }
    rewrite T. cbn [b_more bind]. replace (last <? last) with false by lia.
    cbn [b_num b_szx] in *. rewrite shift_block in * by lia.
    eexists; eexists. split; [reflexivity|]. split; [|split; [apply calls_first|now rewrite Ot]]. constructor; [exact S2| | |now rewrite R2].
    + rewrite L2, CP, BL. nia.
    + rewrite D2, CP, L. exact ALL.
Qed.
Lemma serve_last : forall m n r a n', posted op m -> carries szx last data m ->
  (last = 0 /\ sound n /\ ready n \/ 0 < last /\ has szx (last - 1) data n) -> q_op n = op ->
  serve bio m n = Ok (r, a, n') -> calls a = [(op, b64_wrap (b64_encode data))] /\ completed m op data r n'.
Proof.
  intros m n r a n' P C H On Hs. destruct (serve_last_rest m n P C H On) as (n1 & a0 & E & K & A0 & O1). rewrite E in Hs.
  split; [rewrite <- (p_op _ _ P); apply (rest_done m n1 data a0 r a n'); auto; lia|].
  apply (rest_completed op m n1 data a0 r a n'); auto; [apply P|lia].
Qed.

Definition at_op (n : node) : Prop := q_op n = op.

(** ** A whole upload in the state of one peer *)
Lemma cell_run_app : forall k h1 h2 c rs c', cell_run bio k (h1 ++ h2) c = Ok (rs, c') ->
  exists rs1 rs2 c1, cell_run bio k h1 c = Ok (rs1, c1) /\ cell_run bio k h2 c1 = Ok (rs2, c') /\ rs = rs1 ++ rs2.
Proof.
  intros k. induction h1 as [|e h1 IH]; intros h2 c rs c' H.
  - exists [], rs, c. auto.
  - cbn [app cell_run] in H. apply bind_ok in H as (((r, a), c1) & S & H). apply bind_ok in H as ((rs1, c2) & R & H).
    inversion H; subst. apply IH in R as (x & y & z & X & Y & ->).
    exists ((r, a) :: x), y, z. cbn [cell_run]. rewrite S. cbn [bind]. rewrite X. cbn [bind]. auto.
Qed.

Lemma upload_tail : forall p key ks hi, upload last hi ks -> 0 <= hi -> forall ms n rs c,
  Forall2 (fun m k => posted op m /\ carries szx (fst k) data m) ms ks -> has szx hi data n -> at_op n ->
  cell_run bio key (map (Message p) ms) (Some n) = Ok (rs, c) ->
  exists n', c = Some n' /\ 0 < last /\ has szx (last - 1) data n' /\ at_op n' /\ Forall2 (answered szx) ks rs.
Proof.
  intros p key ks hi U. assert (RF : forall n m, posted op m -> at_op n -> refreshed n (m_op m) = n).
  { intros n m P O. unfold refreshed. rewrite (p_op _ _ P), O. assert (X : op_eqb op op = true) by (destruct op; reflexivity).
    now rewrite X. }
  induction U as [|hi ks Hn U IH|hi k ks Hk U IH|hi k ks H1 Hk U IH]; intros H0 ms n rs c F H O R.
  - inversion F; subst. cbn in R. inversion R; subst. exists n. split; [reflexivity|]. split; [lia|]. split; [exact H|]. split; [exact O|constructor].
  - inversion F as [|m k0 ms' ks' [P C] F']; subst. cbn [fst] in C. cbn [map cell_run cell_step] in R.
    rewrite (posted_early op m Hop P) in R. cbn [opened] in R. rewrite RF in R by assumption.
    destruct (serve_next m n hi H0 Hn P C H) as (r & a & n' & S & H' & E1 & E2 & E3 & E4).
    assert (O' : at_op n').
    { unfold at_op in *. clear - S O P Hop H C H0 Hn Hszx Hdata. pose proof (serve_key bio m n r a n' S).
      pose proof (start_other m n _ _ _ C ltac:(lia)) as ST. rewrite (serve_take op m n Hop P) in S by (rewrite ST; apply H).
      rewrite ST in S. apply bind_ok in S as (t & T & S).
      assert (Q : match t with TFail _ x | TMore _ x | TDone x => q_op x = op end).
      { destruct C as [CB CP]. pose proof (data_ne m (hi + 1) ltac:(lia) (conj CB CP)) as NE. destruct H as [Sn R L D].
        destruct (block_len szx (hi + 1) data ltac:(lia) ltac:(lia) ltac:(lia)) as [BL _].
        pose proof (last_bounds szx data ltac:(lia) ltac:(lia)) as LB. pose proof (bs_pos szx ltac:(lia)) as BS.
        destruct (take_store m n _ (firstn (Z.to_nat (q_len n)) data) Sn CB NE) as (n1 & T' & _ & _ & _ & _ & O1).
        { right. cbn [b_num b_szx]. rewrite shift_block by lia. rewrite <- D. rewrite L. split; [nia|]. split; reflexivity. }
        { cbn [b_num b_szx]. rewrite shift_block by lia. rewrite CP, BL. nia. }
        rewrite T in T'. cbn [b_more] in T'. destruct (hi + 1 <? last); injection T' as ->; congruence. }
      destruct t; cbn [rest] in S.
      - unfold fail in S. congruence.
      - congruence.
      - destruct (q_len n0 <=? 0); [unfold fail in S; congruence|].
        cbv zeta in S. apply bind_ok in S as ((l, blk) & _ & S). destruct (l <=? 0); [unfold fail in S; congruence|].
        destruct (negb _); [unfold fail in S; congruence|]. apply bind_ok in S as ([d|] & _ & S); [|unfold fail in S; congruence].
        apply bind_ok in S as ([kk|] & K & S); [|unfold fail in S; congruence]. unfold answer in S.
        unfold keep_resp in K. destruct (_ <? _); [discriminate|]. apply bind_ok in K as (bb & _ & K). inversion K; subst.
        inversion S; subst. exact Q. }
    rewrite S in R. cbn [bind] in R. apply bind_ok in R as ((rs1, c1) & R1 & R). inversion R; subst.
    destruct (IH ltac:(lia) ms' n' rs1 c F' H' O' R1) as (n2 & -> & Hl & H2 & O2 & FA).
    exists n2. split; [reflexivity|]. split; [exact Hl|]. split; [exact H2|]. split; [exact O2|]. constructor; [|exact FA].
    exists r. cbn [fst snd]. rewrite echo_value in E3 by lia. auto.
  - inversion F as [|m k0 ms' ks' [P C] F']; subst. cbn [fst] in C. cbn [map cell_run cell_step] in R.
    rewrite (posted_early op m Hop P) in R. cbn [opened] in R. rewrite RF in R by assumption.
    assert (HL : hi < last). { clear - U Hk. induction U; lia. }
    destruct (serve_again m n hi k Hk HL P C H) as (r & a & S & E1 & E2 & E3 & E4).
    rewrite S in R. cbn [bind] in R. apply bind_ok in R as ((rs1, c1) & R1 & R). inversion R; subst.
    destruct (IH ltac:(lia) ms' n rs1 c F' H O R1) as (n2 & -> & Hl & H2 & O2 & FA).
    exists n2. split; [reflexivity|]. split; [exact Hl|]. split; [exact H2|]. split; [exact O2|]. constructor; [|exact FA].
    exists r. cbn [fst snd]. rewrite echo_value in E3 by lia. auto.
  - inversion F as [|m k0 ms' ks' [P C] F']; subst. cbn [fst] in C. cbn [map cell_run cell_step] in R.
    rewrite (posted_early op m Hop P) in R. cbn [opened] in R. rewrite RF in R by assumption.
    destruct (serve_gap m n hi k H0 Hk P C H) as (r & a & S & E1 & E2 & E3 & E4).
    rewrite S in R. cbn [bind] in R. apply bind_ok in R as ((rs1, c1) & R1 & R). inversion R; subst.
    destruct (IH ltac:(lia) ms' n rs1 c F' H O R1) as (n2 & -> & Hl & H2 & O2 & FA).
    exists n2. split; [reflexivity|]. split; [exact Hl|]. split; [exact H2|]. split; [exact O2|]. constructor; [|exact FA].
    exists r. cbn [fst snd]. auto.
Qed.

Lemma take_in_op : forall m n t, take_in m n = Ok t -> match t with TFail _ n' | TMore _ n' | TDone n' => q_op n' = q_op n end.
Proof.
  intros m n t H. assert (SK : forall x off d y, store x off d = Ok y -> q_op y = q_op x).
  { intros x off d y Q. apply store_some in Q as (b & _ & ->). reflexivity. }
  unfold take_in in H. destruct (m_block1 m) as [b|].
  - destruct (payload m).
    + destruct (_ =? 0).
      * apply bind_ok in H as (n1 & S & H). apply SK in S. destruct (b_more b); inversion H; exact S.
      * destruct (_ <? _); [now inversion H|]. destruct (_ <? _); [destruct (b_more b); now inversion H|].
        apply bind_ok in H as (n1 & S & H). apply SK in S. destruct (b_more b); inversion H; exact S.
    + destruct (b_more b); now inversion H.
  - destruct (payload m).
    + apply bind_ok in H as (n1 & S & H). apply SK in S. now inversion H.
    + destruct (negb _); now inversion H.
Qed.

Lemma first_op : forall m n r a n', posted op m -> nth 0 (q_resp (start m n)) 0 = 0 -> q_op n = op ->
  serve bio m n = Ok (r, a, n') -> r_code r = 231 -> q_op n' = op.
Proof.
  intros m n r a n' P R O S C. rewrite (serve_take op m n Hop P R) in S. apply bind_ok in S as (t & T & S).
  apply take_in_op in T. assert (O1 : q_op (start m n) = op).
  { unfold start. rewrite (p_op _ _ P). destruct (_ && _); [reflexivity|exact O]. }
  rewrite O1 in T. destruct t as [c x|b x|x]; cbn [rest] in S; unfold fail in S; [now inversion S; subst|now inversion S; subst|].
  destruct (q_len x <=? 0); [now inversion S; subst|].
  cbv zeta in S. apply bind_ok in S as ((l, blk) & _ & S). destruct (l <=? 0); [now inversion S; subst|].
  destruct (negb _); [now inversion S; subst|]. apply bind_ok in S as ([d|] & _ & S); [|now inversion S; subst].
  apply bind_ok in S as ([kk|] & K & S); [|now inversion S; subst]. unfold answer in S.
  inversion S; subst. cbn in C. discriminate.
Qed.

Definition cell_fine (c : option node) : Prop := match c with Some n => fine n | None => True end.
Lemma opened_fine : forall k o c, cell_fine c -> fine (opened k o c).
Proof. intros k o [n|] H; cbn; [now apply refreshed_fine|apply fresh_fine]. Qed.
Lemma opened_op : forall k o c, o <> OpReset -> q_op (opened k o c) = o.
Proof. intros k o [n|] H; cbn; [now apply refreshed_op|reflexivity]. Qed.

(** The completed upload. *)
Lemma upload_run : forall p key ks ms final c rs c', upload last (-1) ks ->
  Forall2 (fun m k => posted op m /\ carries szx (fst k) data m) ms ks ->
  posted op final -> carries szx last data final -> cell_fine c ->
  cell_run bio key (map (Message p) (ms ++ [final])) c = Ok (rs, c') ->
  exists rs1 rf, rs = rs1 ++ [rf] /\ Forall2 (answered szx) ks rs1 /\ calls (snd rf) = [(op, b64_wrap (b64_encode data))]
    /\ exists r n', fst rf = Some r /\ c' = Some n' /\ completed final op data r n'.
Proof.
  intros p key ks ms final c rs c' U F Pf Cf Hc R. rewrite map_app in R.
  apply cell_run_app in R as (rs1 & rs2 & c1 & R1 & R2 & ->).
  assert (NR : op <> OpReset) by (destruct Hop as [->|[->| ->]]; discriminate).
  cbn [map cell_run cell_step] in R2. rewrite (posted_early op final Hop Pf) in R2.
  apply bind_ok in R2 as (((r, a), c2) & S2 & R2). cbn [bind] in R2. inversion R2; subst.
  apply bind_ok in S2 as (((r0, a0), n0) & S2 & E). inversion E; subst. clear E R2.
  exists rs1, (Some r0, a). split; [reflexivity|]. rewrite (p_op _ _ Pf) in S2. cbn [snd].
  inversion U as [|hi ks' Hn U'|hi k ks' Hk U'|hi k ks' H1 Hk U']; subst; try lia.
  - inversion F; subst. cbn in R1. inversion R1; subst. split; [constructor|].
    destruct (serve_last final (opened key op c1) r0 a n0 Pf Cf) as [SL1 SL2]; [| |exact S2|].
    + left. pose proof (opened_fine key op c1 Hc) as FO. split; [lia|]. split; [apply FO|].
      apply (f_ready _ FO). rewrite opened_op by assumption. destruct Hop as [->|[->| ->]]; reflexivity.
    + now apply opened_op.
    + split; [exact SL1|]. exists r0, n0. auto.
  - inversion F as [|m k0 ms' ks'' [P C] F']; subst. cbn [fst] in C. cbn [map cell_run cell_step] in R1.
    rewrite (posted_early op m Hop P) in R1. rewrite (p_op _ _ P) in R1.
    pose proof (opened_fine key op c Hc) as FO. pose proof (opened_op key op c NR) as OO.
    set (n := opened key op c) in *. change (-1 + 1) with 0 in *.
    assert (RD : ready n) by (apply (f_ready _ FO); rewrite OO; destruct Hop as [->|[->| ->]]; reflexivity).
    destruct (serve_first m n ltac:(lia) P C (f_sound _ FO) RD) as (r & a1 & n' & S & H' & E1 & E2 & E3 & E4).
    assert (O' : at_op n').
    { unfold at_op. apply (first_op m n r a1 n' P); auto.
      destruct (start_ready m n RD (f_sound _ FO)) as (_ & Q & _); [now apply (data_ne m 0 ltac:(pose proof (last_bounds szx data ltac:(lia) ltac:(lia)); lia))|destruct C as [-> _]; reflexivity|exact Q]. }
    rewrite S in R1. cbn [bind] in R1. apply bind_ok in R1 as ((rs3, c3) & R3 & R1). inversion R1; subst.
    destruct (upload_tail p key ks' 0 U' ltac:(lia) ms' n' rs3 c1 F' H' O' R3) as (n2 & -> & Hl & H2 & O2 & FA).
    split.
    + constructor; [|exact FA]. exists r. cbn [fst snd]. rewrite echo_value in E3 by lia. auto.
    + cbn [opened] in S2.
      assert (RF : refreshed n2 op = n2).
      { unfold refreshed, at_op in *. rewrite O2. assert (X : op_eqb op op = true) by (destruct op; reflexivity). now rewrite X. }
      rewrite RF in S2.
      destruct (serve_last final n2 r0 a n0 Pf Cf) as [SL1 SL2]; [now right|exact O2|exact S2|].
      split; [exact SL1|]. exists r0, n0. auto.
Qed.

End Upload.

(** Histories keep the state of a peer fine. *)
Lemma cell_run_fine : forall k h c rs c', (forall q m, In (Message q m) h -> plain m /\ m_op m <> OpReset) -> cell_fine c ->
  cell_run bio k h c = Ok (rs, c') -> cell_fine c'.
Proof.
  intros k. induction h as [|e h IH]; intros c rs c' P F R.
  - cbn in R. inversion R; subst. exact F.
  - cbn [cell_run] in R. apply bind_ok in R as (((r, a), c1) & S & R). apply bind_ok in R as ((rs1, c2) & R1 & R).
    inversion R; subst. apply (IH c1 rs1 c'); [intros q m H; apply (P q m); now right| |exact R1].
    destruct e as [q|q|q m]; cbn [cell_step] in S.
    + inversion S; subst. now apply opened_fine.
    + inversion S; subst. exact Logic.I.
    + destruct (P q m (or_introl eq_refl)) as [Pm Om].
      destruct (early m) as [(r1, a1)|]; [inversion S; subst; exact F|].
      apply bind_ok in S as (((r1, a1), n1) & S & E). inversion E; subst. cbn.
      eapply serve_fine; [|apply opened_op; exact Om|exact Pm|exact S]. now apply opened_fine.
Qed.

End Blocks.
