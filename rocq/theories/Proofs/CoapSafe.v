(** CoAP: when every memory access is in bounds; responses served again. *)
From Coq Require Import String ZArith List Bool Lia ZifyBool ZifyNat Sorting.Sorted Sorting.Permutation.
From Verif Require Import Base Spec.Base64 Spec.Http Spec.Coap Spec.Cbor Spec.CoapHistory Model.CLib Model.EstErr Model.Codec Model.Coap
  Proofs.EstErr Proofs.Codec Proofs.CoapCbor Proofs.CoapTable Proofs.CoapRun Proofs.CoapServe Proofs.CoapBlocks.
Import ListNotations.
Open Scope Z_scope.

Definition stout (n : node) : Prop := sound n /\ (q_len n = 0 \/ 5 <= q_len n).

Lemma store_safe : forall n off d, sound n -> 0 <= off -> off + len d <= 16384 ->
  exists n', store n off d = Ok n' /\ sound n' /\ q_len n' = off + len d.
Proof.
  intros n off d S H L. unfold store. pose proof (w_req _ S) as W. rewrite blit_ok by lia. cbn [bind].
  eexists. split; [reflexivity|]. split; [|reflexivity].
  eapply store_sound; [exact S|]. unfold store. rewrite (blit_ok (q_req n) off d) by lia. reflexivity.
Qed.

Lemma take_in_safe : forall m n, sane m -> stout n ->
  exists t, take_in m n = Ok t /\ match t with TFail _ n' | TMore _ n' | TDone n' => stout n' end.
Proof.
  intros m n [Fi F5 _] [S Q]. unfold take_in. destruct (m_block1 m) as [b|].
  - destruct Fi as (F1 & F2 & F3). cbv zeta. rewrite shift_block by assumption.
    pose proof (bs_pos (b_szx b) F2) as BS. set (off := b_num b * block_size (b_szx b)) in *.
    assert (Ho : 0 <= off) by (unfold off; nia).
    destruct (payload m) eqn:Pm.
    + apply payload_ne in Pm. destruct (off =? 0) eqn:E0.
      * set (x := set_req n (if negb (nth 0 (q_req n) 0 =? 0) then zero_buf else q_req n) 0).
        assert (Sx : sound x).
        { apply set_req_sound; [exact S| |lia]. destruct (negb (nth 0 (q_req n) 0 =? 0)); [apply zero_buf_len|apply (w_req _ S)]. }
        destruct (store_safe x 0 (m_payload m) Sx) as (n' & -> & S' & L'); [lia|lia|]. cbn [bind].
        assert (SS : stout n'). { split; [exact S'|]. right. rewrite L'. assert (5 <= len (m_payload m)); [|lia]. apply F5; [unfold off in E0; nia|exact Pm]. }
        destruct (b_more b); eexists; (split; [reflexivity|exact SS]).
      * destruct (q_len n <? off) eqn:E1; [eexists; split; [reflexivity|split; assumption]|].
        destruct (off <? q_len n) eqn:E2; [destruct (b_more b); eexists; (split; [reflexivity|split; assumption])|].
        destruct (store_safe n off (m_payload m) S) as (n' & -> & S' & L'); [lia|lia|]. cbn [bind].
        pose proof (len_nonneg _ (m_payload m)).
        assert (SS : stout n') by (split; [exact S'|right; lia]).
        destruct (b_more b); eexists; (split; [reflexivity|exact SS]).
    + destruct (b_more b); eexists; (split; [reflexivity|split; assumption]).
  - destruct (payload m) eqn:Pm.
    + apply payload_ne in Pm. destruct (store_safe n 0 (m_payload m) S) as (n' & -> & S' & L'); [lia|lia|]. cbn [bind].
      eexists. split; [reflexivity|]. split; [exact S'|]. right. rewrite L'. assert (5 <= len (m_payload m)); [|lia]. now apply F5.
    + destruct (negb (q_len n =? 0)); [eexists; split; [reflexivity|split; assumption]|].
      eexists. split; [reflexivity|]. split; [|now left].
      apply set_req_sound; [exact S| |lia]. destruct (negb (nth 0 (q_req n) 0 =? 0)); [apply zero_buf_len|apply (w_req _ S)].
Qed.

Section Safe.
Variable bio : bool -> bytes -> Z -> bytes.
Hypothesis Hbio : b64_bio bio.

Lemma decode_text_safe : forall t m, visible t -> exists d, decode_text bio t m = Ok d.
Proof.
  intros t m [NN V]. unfold decode_text. rewrite cstr_app0 by assumption. cbn [bind].
  pose proof (decode_safe bio false t m (or_intror V)) as D. destruct (est_base64_decode bio false t m) as [(n, d)|]; [cbn [bind]; eauto|]. exfalso. destruct D as (? & D). discriminate D.
Qed.
Lemma skg_safe : forall key cert, visible key -> visible cert -> exists d, skg_payload bio key cert = Ok d.
Proof.
  intros key cert Vk Vc. unfold skg_payload. set (kmax := if _ <? len key then _ else _).
  destruct (decode_text_safe key kmax Vk) as ([k|] & ->); cbn [bind]; [|eauto].
  set (n1 := 1 + 1 + 2 + 1 + _ + _ + (1 + 2 + 1)). set (cmax := if COAP_REQ_NODE_BUF_LEN_MAX - n1 <? len cert then _ else _).
  destruct (cmax <? 0); [eauto|].
  destruct (decode_text_safe cert cmax Vc) as ([c|] & ->); cbn [bind]; [|eauto].
  unfold n1. rewrite keygen_size_eq. destruct (_ <? keygen_size k c); [eauto|]. rewrite writes. eauto.
Qed.
Lemma enroll_payload_safe : forall op o, (forall s, o_text o = Some s \/ o_key o = Some s -> visible s) ->
  exists d, enroll_payload bio op o = Ok d.
Proof.
  intros op o V. unfold enroll_payload. destruct op, (o_text o) as [c|] eqn:T, (o_key o) as [k|] eqn:K; eauto.
  all: try (apply decode_text_safe; apply V; now left).
  apply skg_safe; apply V; auto.
Qed.
Lemma keep_resp_safe : forall n d, sound n -> exists k, keep_resp n d = Ok k /\ match k with Some n' => sound n' /\ q_len n' = q_len n | None => True end.
Proof.
  intros n d S. destruct (keep_resp n d) as [[k|]|] eqn:E.
  - exists (Some k). split; [reflexivity|]. destruct (keep_resp_sound _ _ _ S E) as (A & _ & B & _). auto.
  - exists None. split; [reflexivity|exact Logic.I].
  - exfalso. unfold keep_resp, COAP_REQ_NODE_BUF_LEN_MAX in E. destruct (16384 <? len d) eqn:L; [discriminate|].
    pose proof (w_resp _ S). rewrite blit_ok in E by lia. discriminate.
Qed.

Lemma serve_safe : forall m n, sane m -> stout n -> exists r a n', serve bio m n = Ok (r, a, n') /\ stout n'.
Proof.
  intros m n Sa St. unfold serve. destruct (is_get (m_op m)).
  - unfold serve_get, answer, fail. destruct (negb _); [eauto 6|].
    destruct (est_coap_check_option _ _ _); try (eauto 6).
    destruct (negb (err_eqb _ _)); [eauto 6|]. destruct (o_text _) as [t|] eqn:T; [|eauto 6].
    destruct (decode_text_safe t (if COAP_REQ_NODE_BUF_LEN_MAX <? len t then COAP_REQ_NODE_BUF_LEN_MAX else len t)) as ([d|] & D).
    { apply (sn_text _ Sa (m_op m) []). now left. }
    + unfold decode_reply. rewrite D. cbn [bind]. destruct (keep_resp_safe n d (proj1 St)) as ([k|] & K & Sk); rewrite K; cbn [bind].
      * do 3 eexists. split; [reflexivity|]. destruct Sk as [Sk Lk]. split; [exact Sk|]. rewrite Lk. apply St.
      * do 3 eexists. split; [reflexivity|exact St].
    + unfold decode_reply. rewrite D. cbn [bind]. do 3 eexists. split; [reflexivity|exact St].
  - unfold serve_enroll. cbv zeta.
    match goal with |- context [if ?c then reinit_coap_req n (m_op m) else n] =>
      set (n1 := if c then reinit_coap_req n (m_op m) else n) end.
    assert (S1 : stout n1).
    { unfold n1. destruct (_ && _); [|exact St]. split; [apply reinit_sound|now left]. }
    clearbody n1. unfold answer, fail. destruct (negb (nth 0 (q_resp n1) 0 =? 0)); [eauto 6|].
    destruct (est_coap_check_option _ _ _); try (eauto 6).
    destruct (take_in_safe m n1 Sa S1) as (t & -> & T). cbn [bind]. destruct t as [c x|b x|x]; [eauto 6|eauto 6|].
    destruct (q_len x <=? 0) eqn:E; [eauto 6|].
    set (csr := firstn (Z.to_nat (q_len x)) (q_req x)).
    assert (L : len csr = q_len x).
    { destruct T as [[W _ B] _]. unfold csr, len in *. rewrite firstn_length. lia. }
    assert (H5 : 5 <= len csr) by (destruct T as [_ [Q|Q]]; lia).
    replace (len csr * 2) with (2 * len csr) by lia.
    rewrite (encode_twice csr _ true H5) by (unfold len; rewrite repeat_length; lia). cbv zeta. cbn [bind].
    destruct (len (b64_wrap (b64_encode csr)) <=? 0); [eauto 6|].
    destruct (negb (err_eqb _ _)); [eauto 6|].
    match goal with |- context [enroll_payload bio ?o ?w] => destruct (enroll_payload_safe o w) as ([d|] & D) end.
    { intros s Hs. eapply (sn_text _ Sa); exact Hs. }
    + rewrite D. cbn [bind]. destruct (keep_resp_safe x d (proj1 T)) as ([k|] & K & Sk); rewrite K; cbn [bind].
      * do 3 eexists. split; [reflexivity|]. destruct Sk as [Sk Lk]. split; [exact Sk|]. rewrite Lk. apply T.
      * do 3 eexists. split; [reflexivity|exact T].
    + rewrite D. cbn [bind]. do 3 eexists. split; [reflexivity|exact T].
Qed.

Variable bsearch : bytes -> list node -> option nat.
Variable qsort : list node -> list node.
Hypothesis Lib : search_lib q_key bsearch qsort.

Definition all_stout (t : table) : Prop := Forall stout (t_nodes t).
Lemma stout_zero : stout zero_node.
Proof. split; [|now left]. constructor; cbn [zero_node q_req q_resp q_len]; try apply zero_buf_len; lia. Qed.
Lemma forall_set : forall l i v, Forall stout l -> stout v -> Forall stout (set_nth i l v).
Proof.
  induction l as [|x l IH]; intros [|i] v F S; cbn; auto; inversion F; subst; constructor; auto.
Qed.
Lemma forall_nth : forall l i, Forall stout l -> stout (nth i l zero_node).
Proof.
  intros l i F. destruct (nth_in_or_default i l zero_node) as [I|E]; [|rewrite E; apply stout_zero].
  rewrite Forall_forall in F. now apply F.
Qed.
Lemma forall_sort : forall l, Forall stout l -> Forall stout (qsort l).
Proof.
  intros l F. rewrite Forall_forall in *. intros x H. apply F. eapply Permutation_in; [apply (sort_perm _ _ _ Lib)|exact H].
Qed.
Lemma get_stout : forall t p op, all_stout t -> all_stout (snd (get_coap_req bsearch qsort t p op)).
Proof.
  intros t p op H. unfold get_coap_req, all_stout. destruct (search_key p) as [k|]; [|exact H].
  destruct (bsearch k (t_nodes t)) as [i|].
  - destruct (_ && _); [|exact H]. cbn. apply forall_set; [exact H|]. split; [apply reinit_sound|now left].
  - destruct (bsearch [] (t_nodes t)) as [e|]; [|exact H].
    set (v := set_op (nth e (t_nodes t) zero_node) k op).
    assert (Sv : stout v). { destruct (forall_nth (t_nodes t) e H) as [[A B C] D]. split; [constructor|]; assumption. }
    assert (F : Forall stout (qsort (set_nth e (t_nodes t) v))) by (apply forall_sort, forall_set; assumption).
    destruct (bsearch k (qsort (set_nth e (t_nodes t) v))); exact F.
Qed.
Lemma remove_stout : forall t i, all_stout t -> all_stout (snd (remove_coap_req bsearch qsort t i)).
Proof.
  intros t [i|] H; [|exact H]. unfold remove_coap_req. destruct (t_cnt t =? 0); [exact H|].
  destruct (bsearch _ _); [|exact H]. cbn. apply forall_sort, forall_set; [exact H|apply stout_zero].
Qed.

Lemma step_safe : forall e t, all_stout t -> (forall p m, e = Message p m -> sane m) ->
  exists r a t', step bio bsearch qsort e t = Ok (r, a, t') /\ all_stout t'.
Proof.
  intros e t H Sm. destruct e as [p|p|p m]; cbn [step].
  - do 3 eexists. split; [reflexivity|]. now apply get_stout.
  - pose proof (get_stout t p OpReset H) as G. destruct (get_coap_req bsearch qsort t p OpReset) as [i t'].
    do 3 eexists. split; [reflexivity|]. now apply remove_stout.
  - specialize (Sm p m eq_refl). unfold serve_message. cbv zeta.
    set (go := match get_coap_req bsearch qsort t p (m_op m) with (None, t') => _ | (Some i, t') => _ end).
    assert (G : exists r a t', go = Ok (r, a, t') /\ all_stout t').
    { unfold go. pose proof (get_stout t p (m_op m) H) as G. destruct (get_coap_req bsearch qsort t p (m_op m)) as [[i|] t']; cbn [snd] in G.
      - destruct (serve_safe m (nth i (t_nodes t') zero_node) Sm (forall_nth _ i G)) as (r & a & n & -> & Sn). cbn [bind].
        do 3 eexists. split; [reflexivity|]. now apply forall_set.
      - eauto 6. }
    clearbody go. destruct (is_get (m_op m)); [destruct (negb (m_ssl m)); [eauto 6|exact G]|].
    destruct (est_coap_check_option _ _ _); try (eauto 6). destruct (negb (m_ssl m)); [eauto 6|]. destruct (negb (m_cert m)); [eauto 6|exact G].
Qed.

Theorem coap_safe : forall N h, (forall p m, In (Message p m) h -> sane m) ->
  is_ok (run bio bsearch qsort h (est_coap_init_req_array N)).
Proof.
  intros N h Hs. assert (G : forall t, all_stout t -> exists rs t', run bio bsearch qsort h t = Ok (rs, t')).
  { induction h as [|e h IH]; intros t Ht; [cbn; eauto|]. rewrite run_cons.
    destruct (step_safe e t Ht) as (r & a & t1 & -> & H1); [intros p m ->; apply (Hs p m); now left|]. cbn [bind].
    destruct (IH (fun p m I => Hs p m (or_intror I)) t1 H1) as (rs & t2 & ->). cbn [bind]. eauto. }
  destruct (G (est_coap_init_req_array N)) as (rs & t' & ->); [|eexists; reflexivity].
  unfold all_stout, est_coap_init_req_array. cbn [t_nodes]. apply Forall_forall. intros x Hx. apply repeat_spec in Hx. subst. apply stout_zero.
Qed.

(** ** Served again *)
Lemma serve_stored : forall m n, nth 0 (q_resp n) 0 <> 0 -> m_payload m = [] \/ (exists b, m_block1 m = Some b /\ b_num b <> 0) \/ is_get (m_op m) = true ->
  serve bio m n = answer (if is_get (m_op m) then 205 else 204) m n [].
Proof.
  intros m n R H. unfold serve. destruct (is_get (m_op m)) eqn:G.
  - unfold serve_get. replace (nth 0 (q_resp n) 0 =? 0) with false by lia. reflexivity.
  - unfold serve_enroll. cbv zeta.
    match goal with |- context [if ?c then reinit_coap_req n (m_op m) else n] => assert (E : c = false) end.
    { destruct H as [H|[(b & H & Hb)|H]]; [|rewrite H|discriminate].
      - unfold payload. rewrite H. cbn. rewrite andb_false_r. reflexivity.
      - replace (b_num b =? 0) with false by lia. rewrite andb_false_r. reflexivity. }
    rewrite E. replace (nth 0 (q_resp n) 0 =? 0) with false by lia. reflexivity.
Qed.

End Safe.
