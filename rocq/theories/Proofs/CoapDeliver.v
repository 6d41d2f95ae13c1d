(** What a peer receives: the documented codes, the certificate, key and
    certificate, CA certificates and attributes. *)
From Coq Require Import String ZArith List Bool Lia ZifyBool ZifyNat.
From Verif Require Import Base Spec.Base64 Spec.Http Spec.Coap Spec.Cbor Spec.CoapHistory Model.CLib Model.EstErr Model.Codec Model.Coap
  Proofs.Codec Proofs.EstErr Proofs.CoapCbor Proofs.CoapTable Proofs.CoapRun Proofs.CoapServe Proofs.CoapBlocks Proofs.CoapClaims.
Import ListNotations.
Open Scope Z_scope.

Lemma enroll_refusal : forall e, e <> EST_ERR_NONE -> refusal e (enroll_code e).
Proof.
  intros e _. unfold refusal. destruct e; cbn [enroll_code]; repeat match goal with |- _ /\ _ => split end;
    first [split; intro H; repeat (match goal with H : _ \/ _ |- _ => destruct H as [H|H] end); try discriminate; auto 10
          |repeat first [left; reflexivity|right]; reflexivity].
Qed.
Lemma get_refusal_ok : forall e, e <> EST_ERR_NONE -> get_refusal e (get_code e).
Proof.
  intros e _. unfold get_refusal. destruct e; cbn [get_code]; repeat match goal with |- _ /\ _ => split end;
    first [split; intro H; repeat (match goal with H : _ \/ _ |- _ => destruct H as [H|H] end); try discriminate; auto 10
          |repeat first [left; reflexivity|right]; reflexivity].
Qed.

Lemma decode_reply_ok : forall bio, b64_bio bio -> forall t der, text_of t der -> all_bytes der -> der <> [] ->
  decode_reply bio t = Ok (if len der <=? 16384 then Some der else None).
Proof.
  intros bio Hbio t der T B N. unfold decode_reply, COAP_REQ_NODE_BUF_LEN_MAX.
  pose proof (text_long _ _ T) as L. pose proof (len_nonneg _ t) as P.
  rewrite (decode_text_ok bio Hbio t der) by (auto; destruct (16384 <? len t); lia).
  f_equal. destruct (16384 <? len t) eqn:E; [reflexivity|]. replace (len der <=? len t) with true by lia.
  replace (len der <=? 16384) with true by lia. reflexivity.
Qed.

Lemma completed_delivered : forall bio, b64_bio bio -> forall m op data r n, enrolls op ->
  completed bio m op data r n -> delivered op (m_env m op (b64_wrap (b64_encode data))) r.
Proof.
  intros bio Hbio m op data r n Hop K. destruct K as [K1 K2 K3]. cbv zeta in *.
  set (o := m_env m op (b64_wrap (b64_encode data))) in *. clearbody o.
  split; [|split].
  - intro E. exists (enroll_code (o_rc o)). rewrite (K1 E). split; [repeat split|]. now apply enroll_refusal.
  - intros E Ns t der Et T B Nd.
    assert (P : enroll_payload bio op o = decode_reply bio t).
    { unfold enroll_payload. rewrite Et. destruct Hop as [->|[->| ->]]; [reflexivity|reflexivity|congruence]. }
    rewrite (decode_reply_ok bio Hbio t der T B Nd) in P.
    destruct (len der <=? 16384) eqn:L.
    + destruct (K2 der E P) as (-> & _); [lia|]. destruct Hop as [->|[->| ->]]; [repeat split|repeat split|congruence].
    + rewrite (K3 E P). repeat split.
  - intros E -> t der tk key Et Ek T B Nd Tk Bk Nk.
    assert (P : enroll_payload bio OpSkg o = skg_payload bio tk t) by (unfold enroll_payload; now rewrite Et, Ek).
    rewrite (skg_exact bio Hbio tk t key der Tk T Bk B Nk Nd) in P.
    pose proof (skg_bytes_len key der) as SL.
    destruct (keygen_size key der <=? 16384) eqn:L.
    + exists (skg_bytes key der). destruct (K2 _ E P) as (-> & _); [lia|]. split; [repeat split|]. split; [|exact SL].
      apply skg_bytes_cbor; try assumption; pose proof (bstr_size_ge (len key)); pose proof (bstr_size_ge (len der)); pose proof (len_nonneg _ key); pose proof (len_nonneg _ der); unfold keygen_size in L; lia.
    + rewrite (K3 E P). repeat split.
Qed.

(** ** GETs *)
Definition blank (c : option node) : Prop :=
  match c with Some n => q_op n = OpReset | None => True end
  /\ match c with Some n => q_req n = zero_buf /\ q_resp n = zero_buf /\ q_len n = 0 | None => True end.
Lemma silent_blank : forall bio k h c rs c', silent h -> blank c -> cell_run bio k h c = Ok (rs, c') -> blank c' /\ length rs = length h.
Proof.
  intros bio k. induction h as [|e h IH]; intros c rs c' S B R; cbn [cell_run] in R; [inversion R; subst; auto|].
  apply bind_ok in R as (((r, a), c1) & S1 & R). apply bind_ok in R as ((rs1, c2) & R1 & R). inversion R; subst. clear R.
  assert (S' : silent h) by (intros p m I; apply (S p m); now right).
  assert (B1 : blank c1).
  { destruct e as [p|p|p m]; cbn [cell_step] in S1; [| |exfalso; apply (S p m); now left]; inversion S1; subst.
    - destruct c as [n|]; cbn [opened].
      + destruct B as [B1 B2]. unfold refreshed. rewrite B1. cbn. split; [exact B1|exact B2].
      + split; [reflexivity|]. repeat split.
    - split; exact Logic.I. }
  destruct (IH c1 rs1 c' S' B1 R1). split; [assumption|]. cbn. lia.
Qed.
Lemma opened_blank : forall k op c, blank c -> op <> OpReset ->
  exists n, opened k op c = n /\ q_op n = op /\ q_req n = zero_buf /\ q_resp n = zero_buf /\ q_len n = 0.
Proof.
  intros k op [n|] [B1 B2] Hop; cbn [opened]; eexists; (split; [reflexivity|]).
  - unfold refreshed. rewrite B1. destruct op; [congruence|..]; cbn; auto.
  - cbn. auto.
Qed.

Section Deliver.
Variable bio : bool -> bytes -> Z -> bytes.
Hypothesis Hbio : b64_bio bio.
Variable bsearch : bytes -> list node -> option nat.
Variable qsort : list node -> list node.
Hypothesis Lib : search_lib q_key bsearch qsort.
Notation run := (run bio bsearch qsort).
Notation init N := (est_coap_init_req_array N).

Lemma cells : forall N ps h p rs t, peers_fit N ps h -> In p ps -> run h (init N) = Ok (rs, t) ->
  exists k c', cell_run bio k (filter (mine p) h) None = Ok (answers_to (mine p) h rs, c').
Proof.
  intros N ps h p rs t F Hp R. destruct (room_nat _ _ _ F) as [HN L].
  replace N with (Z.of_nat (Z.to_nat N)) in * by lia.
  destruct (run_cells bio bsearch qsort Lib (Z.to_nat N) ps key_of) with (h := h) (t := est_coap_init_req_array (Z.of_nat (Z.to_nat N)))
    (dom := @nil bytes) (f := fun _ : bytes => zero_node) (rs := rs) (t' := t) as (dom' & f' & _ & _ & C).
  - intros q Hq. apply key_of_ok. now apply (pf_addr _ _ _ F).
  - intros a b Ha Hb E. apply (pf_keys _ _ _ F); auto. apply key_of_inj; auto; now apply (pf_addr _ _ _ F).
  - lia.
  - apply init_holds.
  - apply incl_nil_l.
  - apply (pf_all _ _ _ F).
  - exact R.
  - specialize (C p Hp). exists (key_of p). eexists. exact C.
Qed.

Lemma first_message : forall N ps h p h0 m rs t, peers_fit N ps h -> In p ps ->
  filter (mine p) h = h0 ++ [Message p m] -> silent h0 -> m_op m <> OpReset -> early m = None ->
  run h (init N) = Ok (rs, t) ->
  exists rs0 r a n n', answers_to (mine p) h rs = rs0 ++ [(Some r, a)] /\ length rs0 = length h0
   /\ serve bio m n = Ok (r, a, n') /\ q_op n = m_op m /\ q_req n = zero_buf /\ q_resp n = zero_buf /\ q_len n = 0.
Proof.
  intros N ps h p h0 m rs t F Hp Hh S Hop He R. destruct (cells _ _ _ _ _ _ F Hp R) as (k & c' & C).
  rewrite Hh in C. apply cell_run_app in C as (rs0 & rs2 & c1 & R0 & R2 & E).
  destruct (silent_blank bio k h0 None rs0 c1 S) as [B L]; [split; exact Logic.I|exact R0|].
  cbn [cell_run cell_step] in R2. rewrite He in R2.
  destruct (opened_blank k (m_op m) c1 B Hop) as (n & En & N1 & N2 & N3 & N4). rewrite En in R2.
  apply bind_ok in R2 as (((r, a), c2) & S2 & R2). apply bind_ok in S2 as (((r1, a1), n1) & S2 & S3). inversion S3; subst r a c2.
  cbn [bind] in R2. inversion R2; subst rs2. rewrite E. exists rs0, r1, a1, n, n1. auto 10.
Qed.

Theorem coap_get : forall N ps h p h0 m rs t, peers_fit N ps h -> In p ps ->
  filter (mine p) h = h0 ++ [Message p m] -> silent h0 ->
  (m_op m = OpCrts \/ m_op m = OpAtt) -> m_ssl m = true -> short_options (m_opts m) ->
  (values 17 (m_opts m) = [] \/ values 17 (m_opts m) = [answer_type (m_op m)]) ->
  run h (init N) = Ok (rs, t) ->
  exists rs0 r a, answers_to (mine p) h rs = rs0 ++ [(Some r, a)] /\ length rs0 = length h0
    /\ calls a = [(m_op m, [])] /\ fetched (m_op m) (m_env m (m_op m) []) r.
Proof.
  intros N ps h p h0 m rs t F Hp Hh S Hop Hs SO Ha R.
  assert (G : is_get (m_op m) = true) by (destruct Hop as [-> | ->]; reflexivity).
  assert (He : early m = None) by (unfold early; rewrite G, Hs; reflexivity).
  assert (Hr : m_op m <> OpReset) by (destruct Hop as [-> | ->]; discriminate).
  destruct (first_message _ _ _ _ _ _ _ _ F Hp Hh S Hr He R) as (rs0 & r & a & n & n' & E & L & Sv & N1 & N2 & N3 & N4).
  exists rs0, r, a. split; [exact E|]. split; [exact L|].
  unfold serve in Sv. rewrite G in Sv. unfold serve_get in Sv. rewrite N3 in Sv. rewrite zero_buf_0 in Sv. change (negb (0 =? 0)) with false in Sv. cbv iota in Sv.
  assert (MT : media_of (m_op m) = answer_type (m_op m)) by (destruct Hop as [-> | ->]; reflexivity).
  assert (A : est_coap_check_option (m_opts m) COAP_OPTION_ACCEPT (media_of (m_op m)) = EST_ERR_NONE).
  { apply accept_ok; [exact SO|]. now rewrite MT. }
  rewrite A in Sv. set (o := m_env m (m_op m) []) in *. clearbody o. unfold fail in Sv.
  assert (FE : forall e, e <> EST_ERR_NONE -> EstErr.err_eqb e EST_ERR_NONE = false).
  { intros e Ne. destruct (EstErr.err_eqb e EST_ERR_NONE) eqn:X; [|reflexivity]. apply err_eqb_eq in X. congruence. }
  destruct (EstErr.err_eqb (o_rc o) EST_ERR_NONE) eqn:X; cbn [negb] in Sv.
  2: { inversion Sv; subst. split; [reflexivity|]. assert (Y : o_rc o <> EST_ERR_NONE) by (intro Y; rewrite Y in X; discriminate).
       split; [|split; intro Z; congruence]. intros _. exists (get_code (o_rc o)). split; [repeat split|now apply get_refusal_ok]. }
  apply err_eqb_eq in X. destruct (o_text o) as [tx|] eqn:T.
  2: { inversion Sv; subst. split; [reflexivity|]. split; [congruence|]. split; [intros _ _|congruence]. destruct Hop as [-> | ->]; repeat split. }
  assert (Cc : calls a = [(m_op m, [])]).
  { apply bind_ok in Sv as ([d|] & _ & Sv); [|inversion Sv; subst; reflexivity].
    apply bind_ok in Sv as ([k|] & _ & Sv); [|inversion Sv; subst; reflexivity].
    unfold answer in Sv. inversion Sv; subst. destruct (m_more2 m); reflexivity. }
  split; [exact Cc|]. split; [congruence|]. split; [congruence|]. intros _ t' der Et Tx B Nd. assert (t' = tx) by congruence; subst t'. clear Et.
  rewrite (decode_reply_ok bio Hbio tx der Tx B Nd) in Sv. cbn [bind] in Sv.
  destruct (len der <=? 16384) eqn:Ld.
  - assert (Sn : sound n).
    { constructor; [rewrite N2; apply zero_buf_len|rewrite N3; apply zero_buf_len|lia]. }
    destruct (keep_fits bio n der Sn) as (n2 & K); [lia|]. rewrite K in Sv. cbn [bind] in Sv. unfold answer in Sv.
    destruct (stored_kept m n der n2 205 K Sn) as (E1 & _). inversion Sv; subst. rewrite E1. rewrite MT. repeat split.
  - inversion Sv; subst. repeat split.
Qed.

(** ** Format options *)
Theorem content_format : forall p m t c, enrolls (m_op m) -> short_options (m_opts m) ->
  option_verdict (values 12 (m_opts m)) 402 286 400 = c -> c <> 0 ->
  step bio bsearch qsort (Message p m) t = Ok (Some (code c), [], t).
Proof.
  intros p m t c Hop SO V Nz. pose proof (check_option (m_opts m) 12 286 SO (or_introl eq_refl)) as C.
  change (12 =? 12) with true in C. cbv iota in C. rewrite V in C. cbn [step]. unfold serve_message. cbv zeta.
  replace (is_get (m_op m)) with false by (destruct Hop as [->|[->| ->]]; reflexivity).
  assert (D : c = 402 \/ c = 400) by (subst c; unfold option_verdict in *; destruct (values 12 (m_opts m)) as [|v [|w l]]; auto;
    destruct (v =? 286); auto; try congruence; destruct (65535 <? v); auto).
  unfold COAP_OPTION_CONTENT_TYPE, COAP_MEDIA_TYPE_PKCS10.
  destruct (est_coap_check_option (m_opts m) 12 286); cbn in C; destruct D; subst c; try congruence; rewrite <- C; reflexivity.
Qed.

Theorem unauthenticated : forall p m t, enrolls (m_op m) -> short_options (m_opts m) -> values 12 (m_opts m) = [286] ->
  m_ssl m && m_cert m = false -> step bio bsearch qsort (Message p m) t = Ok (Some (code 401), [AEnd], t).
Proof.
  intros p m t Hop SO V A. cbn [step]. unfold serve_message. cbv zeta.
  replace (is_get (m_op m)) with false by (destruct Hop as [->|[->| ->]]; reflexivity).
  rewrite (proj2 (content_ok _ SO) V). destruct (m_ssl m); [|reflexivity]. cbn in A. rewrite A. reflexivity.
Qed.

Lemma accept_refused : forall m n c, short_options (m_opts m) -> m_op m <> OpReset ->
  option_verdict (values 17 (m_opts m)) 0 (answer_type (m_op m)) 406 = c -> c <> 0 ->
  nth 0 (q_resp n) 0 = 0 -> exists a n', serve bio m n = Ok (code c, a, n') /\ calls a = [].
Proof.
  intros m n c SO Hr V Nz R0. pose proof (check_option (m_opts m) 17 (media_of (m_op m)) SO (or_intror eq_refl)) as C.
  assert (MT : media_of (m_op m) = answer_type (m_op m)) by (destruct (m_op m); reflexivity).
  assert (D : c = 402 \/ c = 406) by (subst c; unfold option_verdict in *; destruct (values 17 (m_opts m)) as [|v [|w l]]; auto;
    [congruence|destruct (v =? answer_type (m_op m)); auto; try congruence; destruct (65535 <? v); auto..]).
  change (17 =? 12) with false in C. cbv iota in C. rewrite MT, V in C. unfold serve. destruct (is_get (m_op m)) eqn:G.
  - unfold serve_get. rewrite R0. change (negb (0 =? 0)) with false. cbv iota. unfold COAP_OPTION_ACCEPT. rewrite MT.
    destruct (est_coap_check_option (m_opts m) 17 (answer_type (m_op m))); cbn in C; clear V; destruct D; subst c; try congruence; unfold fail;
      do 2 eexists; (split; [reflexivity|]); now destruct (m_op m).
  - unfold serve_enroll. cbv zeta.
    match goal with |- context [if ?b then reinit_coap_req n (m_op m) else n] => set (n1 := if b then reinit_coap_req n (m_op m) else n) end.
    assert (R1 : nth 0 (q_resp n1) 0 = 0) by (unfold n1; destruct (_ && _); [reflexivity|exact R0]). clearbody n1.
    rewrite R1. change (negb (0 =? 0)) with false. cbv iota. unfold COAP_OPTION_ACCEPT. rewrite MT.
    destruct (est_coap_check_option (m_opts m) 17 (answer_type (m_op m))); cbn in C; clear V; destruct D; subst c; try congruence; unfold fail;
      do 2 eexists; (split; [reflexivity|]); now destruct (nth 0 (q_req n1) 0 =? 0).
Qed.

Theorem accept_format : forall N ps h p h0 m rs t c, peers_fit N ps h -> In p ps ->
  filter (mine p) h = h0 ++ [Message p m] -> silent h0 -> m_op m <> OpReset -> short_options (m_opts m) -> admitted m = true ->
  option_verdict (values 17 (m_opts m)) 0 (answer_type (m_op m)) 406 = c -> c <> 0 ->
  run h (init N) = Ok (rs, t) ->
  exists rs0 a, answers_to (mine p) h rs = rs0 ++ [(Some (code c), a)] /\ length rs0 = length h0 /\ calls a = [].
Proof.
  intros N ps h p h0 m rs t c F Hp Hh S Hr SO Ad V Nz R.
  assert (He : early m = None) by (rewrite admitted_early in Ad by exact SO; destruct (early m); [discriminate|reflexivity]).
  destruct (first_message _ _ _ _ _ _ _ _ F Hp Hh S Hr He R) as (rs0 & r & a & n & n' & E & L & Sv & N1 & N2 & N3 & N4).
  destruct (accept_refused m n c SO Hr V Nz) as (a1 & n1 & Sv' & C1); [rewrite N3; reflexivity|].
  rewrite Sv in Sv'. inversion Sv'; subst. exists rs0, a1. auto.
Qed.

(** ** Upload *)
Theorem coap_delivered : forall N ps h p op szx data h0 ms ks final rs t,
  peers_fit N ps h -> In p ps -> enrolls op -> 0 <= szx <= 6 -> 5 <= len data <= 16384 ->
  filter (mine p) h = h0 ++ map (Message p) (ms ++ [final]) ->
  (forall q m, In (Message q m) h0 -> plain m /\ m_op m <> OpReset) ->
  upload (last_block szx data) (-1) ks ->
  Forall2 (fun m k => posted op m /\ carries szx (fst k) data m) ms ks ->
  posted op final -> carries szx (last_block szx data) data final ->
  run h (init N) = Ok (rs, t) ->
  exists rs0 rs1 r a, answers_to (mine p) h rs = rs0 ++ rs1 ++ [(Some r, a)] /\ length rs0 = length h0
    /\ Forall2 (answered szx) ks rs1
    /\ calls a = [(op, b64_wrap (b64_encode data))]
    /\ delivered op (m_env final op (b64_wrap (b64_encode data))) r.
Proof.
  intros N ps h p op szx data h0 ms ks final rs t F Hp Hop Hs Hd Hh H0 U FF Pf Cf R.
  destruct (coap_upload bio bsearch qsort Lib N ps h p op szx data h0 ms ks final rs t F Hp Hop Hs Hd Hh H0 U FF Pf Cf R)
    as (rs0 & rs1 & rf & r & E & L & FA & CA & Er & n & K).
  destruct rf as [rr a]. cbn [fst snd] in *. subst rr. exists rs0, rs1, r, a. split; [exact E|]. split; [exact L|]. split; [exact FA|].
  split; [exact CA|]. now apply (completed_delivered bio Hbio final op data r n).
Qed.

(** The stored response. *)
Theorem coap_repeated : forall N ps h p op szx data h0 ms ks final more rs t text der,
  peers_fit N ps h -> In p ps -> (op = OpSen \/ op = OpSren) -> 0 <= szx <= 6 -> 5 <= len data <= 16384 ->
  filter (mine p) h = h0 ++ map (Message p) (ms ++ [final]) ++ map (Message p) more ->
  (forall q m, In (Message q m) h0 -> plain m /\ m_op m <> OpReset) ->
  upload (last_block szx data) (-1) ks ->
  Forall2 (fun m k => posted op m /\ carries szx (fst k) data m) ms ks ->
  posted op final -> carries szx (last_block szx data) data final ->
  let o := m_env final op (b64_wrap (b64_encode data)) in
  o_rc o = EST_ERR_NONE -> o_text o = Some text -> text_of text der -> all_bytes der -> len der <= 16384 -> der <> [] -> nth 0 der 0 <> 0 ->
  (forall m, In m more -> posted op m /\ m_payload m = []) ->
  run h (init N) = Ok (rs, t) ->
  exists before rest, answers_to (mine p) h rs = before ++ rest /\ length before = (length h0 + length ms)%nat
    /\ map fst rest = map (fun _ => Some {| r_code := 204; r_body := Some (281, der); r_block1 := None |}) (final :: more)
    /\ concat (map (fun x => calls (snd x)) rest) = [(op, b64_wrap (b64_encode data))].
Proof.
  intros N ps h p op szx data h0 ms ks final more rs t text der F Hp Hop Hs Hd Hh H0 U FF Pf Cf o Eo Et T B L Nd N0 Hm R.
  assert (En : enrolls op) by (unfold enrolls; tauto).
  assert (P : enroll_payload bio op o = Ok (Some der)).
  { unfold enroll_payload. rewrite Et. assert (D : decode_reply bio text = Ok (Some der)).
    { rewrite (decode_reply_ok bio Hbio text der T B Nd). now replace (len der <=? 16384) with true by lia. }
    destruct Hop as [-> | ->]; exact D. }
  destruct (coap_again bio bsearch qsort Lib N ps h p op szx data h0 ms ks final more rs t der F Hp En Hs Hd Hh H0 U FF Pf Cf Eo P L N0 Hm R)
    as (b & rest & E1 & E2 & E3 & E4).
  exists b, rest. split; [exact E1|]. split; [exact E2|]. split; [|exact E4]. rewrite E3. destruct Hop as [-> | ->]; reflexivity.
Qed.
End Deliver.
