(** From the proxy's last contact to its answer, in terms of what was read. *)
From Coq Require Import String ZArith List Bool Lia ZifyBool ZifyNat.
From Verif Require Import Base Spec.Http Spec.Client Spec.Multipart Spec.ClientCalls Model.CLib Model.EstErr Model.Codec Model.Uri Model.AuthHdr Model.HttpServer Model.ClientHttp Model.Multipart Model.Host Model.CsrAttrs Model.Client
  Proofs.EstErr Proofs.HttpRender Proofs.ClientHttp Proofs.ClientRender Proofs.ClientHeaders Proofs.ClientServer Proofs.MultipartResponse Proofs.ClientModes Proofs.ClientCalls Proofs.ClientShelf Proofs.RelayCourse Proofs.RelayAnswer.
Import ListNotations.
Open Scope Z_scope.

(** ** Counting *)
Lemma err_dec : forall x, x = EST_ERR_NONE \/ (x <> EST_ERR_NONE /\ err_eqb x EST_ERR_NONE = false).
Proof. destruct x; (left; reflexivity) || (right; split; [discriminate|reflexivity]). Qed.
Lemma contact_connects : forall X op body c w evs r, contact X op body c w evs r -> connects evs = 1%nat.
Proof. intros * H. inversion H; reflexivity. Qed.
Lemma connects_app : forall a b, connects (a ++ b) = (connects a + connects b)%nat.
Proof. intros. unfold connects. rewrite filter_app, app_length. reflexivity. Qed.
Lemma course_connects : forall X g op body c w evs r w', course X g op body c w evs r w' ->
  connects evs = 1%nat \/ (connects evs = 2%nat /\ g = true /\ exists sc q reads last, evs = conn c :: ERequest q :: EResponse reads :: last /\ connects last = 1%nat /\ asks sc reads /\ In sc scheme_names).
Proof.
  intros * H. inversion H as [? Hc|? ? ? ? ? Hc|? c1 sc q reads evs2 ? Hg Hc He Ha Hm Hm1 Hc2]; subst; try (left; eapply contact_connects; eassumption).
  right. rewrite connects_app. apply contact_connects in Hc, Hc2. rewrite Hc2, Hc. split; [reflexivity|]. split; [reflexivity|]. exists sc, q, reads, evs2. split; [reflexivity|]. split; [exact Hc2|]. split; [exact Ha|].
  eapply mode_scheme_in; eauto.
Qed.

(** ** The end of a contact *)
Lemma last_eq : forall (T : Type) (a b : list T) x y, a ++ [x] = b ++ [y] -> a = b /\ x = y.
Proof. intros. now apply app_inj_tail. Qed.
Lemma contact_final : forall X op body c w evs r pre reads, contact X op body c w evs r -> evs = pre ++ [EResponse reads] ->
  exists k, match answer X op reads k with UB => r = UB | Ok (e, key, cert, k') => exists c', r = Ok (e, key, cert, put_http k' c') end.
Proof.
  intros * H E. inversion H; subst; cbn [Datatypes.app] in *.
  1-4: change [conn c] with ([] ++ [conn c]) in *; match goal with Q : _ ++ [_] = _ ++ [_] |- _ => apply last_eq in Q as [_ Q] end; discriminate.
  1: match goal with Q : [conn ?c; ERequest ?q] = _ |- _ => change [conn c; ERequest q] with ([conn c] ++ [ERequest q]) in Q; apply last_eq in Q as [_ Q] end; discriminate.
  all: match goal with Q : [conn ?c; ERequest ?q; EResponse ?x] = _ |- _ => change [conn c; ERequest q; EResponse x] with ([conn c; ERequest q] ++ [EResponse x]) in Q; apply last_eq in Q as [_ Q]; injection Q as <- end.
  all: exists (set_status 0 (c_http c)); match goal with Q : answer _ _ _ _ = _ |- _ => rewrite Q end; eauto.
Qed.
Lemma contact_nonempty : forall X op body c w evs r, contact X op body c w evs r -> evs <> [].
Proof. intros * H. inversion H; discriminate. Qed.
Lemma suffix_last : forall (T : Type) (a b pre : list T) x, b <> [] -> a ++ b = pre ++ [x] -> exists p, b = p ++ [x].
Proof.
  intros T a b pre x N E. destruct (exists_last N) as (p & y & ->). rewrite app_assoc in E. apply last_eq in E as [_ ->]. eauto.
Qed.
Lemma course_final : forall X g op body c w evs r w' pre reads, course X g op body c w evs r w' -> evs = pre ++ [EResponse reads] ->
  (exists k, match answer X op reads k with UB => r = UB | Ok (e, key, cert, k') => exists c', r = Ok (e, key, cert, put_http k' c') end).
Proof.
  intros * H E. inversion H; subst; try (eapply contact_final; eauto; fail).
  match goal with Q : _ ++ ?b = _ ++ [_], Q2 : contact X op body _ _ ?b _ |- _ => destruct (suffix_last _ _ _ _ _ (contact_nonempty _ _ _ _ _ _ _ Q2) Q) as (p & ->); eapply contact_final; eauto end.
Qed.

(** ** What an answer is taken for *)
Lemma told_get : forall X op reads k rv k' rv0 d0 k0, is_keygen op = false -> told X op reads k rv k' -> est_io_get_response reads op k = Ok (rv0, d0, k0) -> rv = rv0 /\ k' = k0.
Proof. intros X op reads k rv k' rv0 d0 k0 Hk T E. unfold told in T. rewrite Hk in T. destruct T as (d & T). rewrite E in T. injection T as -> _ ->. auto. Qed.
Lemma told_read_error : forall X op reads k rv k' rv0 raw, told X op reads k rv k' -> est_io_read_raw reads [] = (rv0, raw) -> rv0 <> EST_ERR_NONE -> rv = rv0.
Proof.
  intros X op reads k rv k' rv0 raw T E N0. destruct (err_dec rv0) as [?|[_ N]]; [contradiction|]. unfold told in T. destruct (is_keygen op); destruct T as (d & T).
  - unfold est_io_get_keygen_response in T. rewrite E, N in T. cbn [negb] in T. now injection T.
  - unfold est_io_get_response in T. rewrite E, N in T. cbn [negb] in T. now injection T.
Qed.
Lemma read_broken : forall segs rest acc, Forall (fun d => d <> []) segs -> len acc + len (concat segs) < EST_CA_MAX ->
  exists r, est_io_read_raw (map Data segs ++ Failed :: rest) acc = (EST_ERR_SSL_READ, r).
Proof.
  induction segs as [|d segs IH]; intros rest acc F L; cbn [map Datatypes.app concat est_io_read_raw] in *; [eauto|]. inversion F as [|? ? Fd Fs]; subst. rewrite len_app in L.
  pose proof (len_nonneg _ (concat segs)). pose proof (len_nonneg _ d). pose proof (len_nonneg _ acc).
  replace (len d =? 0) with false. 2: { destruct d; [contradiction|]. rewrite len_cons. pose proof (len_nonneg _ d). lia. }
  replace (len d <? EST_CA_MAX - len acc) with true by lia. apply IH; [assumption|]. rewrite len_app. lia.
Qed.
Lemma told_empty : forall X op rest k rv k', told X op (Data [] :: rest) k rv k' -> rv = EST_ERR_HTTP_NOT_FOUND.
Proof.
  intros X op rest k rv k' T. unfold told in T. destruct (is_keygen op); destruct T as (d & T).
  - unfold est_io_get_keygen_response in T. cbn in T. now injection T.
  - rewrite no_answer in T. now injection T.
Qed.
(** Key generation: the status counts unless the head cannot be taken apart. *)
Lemma keygen_status : forall junk evs c rv d c' raw, est_io_get_keygen_response junk evs c = Ok (rv, d, c') -> arrives evs raw -> 0 < len raw < EST_CA_MAX ->
  rv = EST_ERR_MULTIPART_PARSE \/ exists m hs rv' c1, status_result m hs (first_status status_codes raw) (set_status (first_status status_codes raw) c) = Ok (rv', c1) /\ (rv' <> EST_ERR_NONE -> rv = rv' /\ c' = c1).
Proof.
  intros junk evs c rv d c' raw H A L. unfold est_io_get_keygen_response in H. rewrite (read_arrives _ _ A) in H by lia. change (negb (err_eqb EST_ERR_NONE EST_ERR_NONE)) with false in H. cbv iota in H.
  replace (len raw <=? 0) with false in H by lia. unfold est_io_parse_response_status_code in H. rewrite first_status_zeros in H.
  generalize dependent (raw ++ repeat 0 (Z.to_nat (EST_CA_MAX - len raw))). intros m H.
  destruct (parse_and_split_keygen_rsp m) as [[[[[m1 cur] hs] bnd]|]|]; [|left; now injection H|discriminate]. cbn [bind] in H. right.
  destruct (status_result m1 hs _ _) as [[rv' c1]|] eqn:S; [|discriminate]. exists m1, hs, rv', c1. split; [exact S|]. intro N. cbn [bind] in H. destruct (err_dec rv') as [?|[_ N']]; [contradiction|]. rewrite N' in H. injection H as -> _ ->. auto.
Qed.
Lemma told_status : forall X op reads k rv k' raw code t, told X op reads k rv k' -> arrives reads raw -> In code [204; 400; 401; 404; 423; 500; 502; 504] ->
  raw = str "HTTP/1.1 " ++ print_int code ++ t -> len raw <= 1999955 -> rv = status_error code \/ (op = OP_SERVER_KEYGEN /\ rv = EST_ERR_MULTIPART_PARSE).
Proof.
  intros X op reads k rv k' raw code t T A I E L. destruct (is_keygen op) eqn:Ek.
  - unfold told in T. rewrite Ek in T. destruct T as (d & T).
    assert (L0 : 0 < len raw < EST_CA_MAX) by (rewrite E at 1; rewrite len_app; change (len (str "HTTP/1.1 ")) with 9; pose proof (len_nonneg _ (print_int code ++ t)); unfold EST_CA_MAX; lia).
    assert (St : first_status status_codes raw = code) by (apply (status_line raw code t); [cbn in I |- *; intuition|exact E]).
    apply (keygen_status _ _ _ _ _ _ raw) in T; auto. rewrite St in T. destruct T as [T|(m & hs & rv' & c1 & S & T)]; [right; split; [destruct op; discriminate || reflexivity|exact T]|]. left.
    assert (R : rv' = status_error code /\ rv' <> EST_ERR_NONE).
    { cbn in I. destruct I as [<-|[<-|[<-|[<-|[<-|[<-|[<-|[<-|[]]]]]]]]]; unfold status_result in S; cbn [Z.eqb Pos.eqb] in S; try (injection S as <- _; split; [reflexivity|discriminate]).
      destruct (k_mode _); try (injection S as <- _; split; [reflexivity|discriminate]); destruct (est_io_parse_http_auth_request _ _ _); try discriminate S; injection S as <- _; (split; [reflexivity|discriminate]). }
    destruct R as [R N]. rewrite <- R. now apply T.
  - left. destruct (status_any reads raw code t op k A I E L) as (c1 & Q & _). eapply told_get; eauto.
Qed.
Lemma told_unknown : forall X op reads k rv k' raw, told X op reads k rv k' -> arrives reads raw -> 0 < len raw <= 1999955 ->
  (forall code t, In code [200; 202; 204; 400; 401; 404; 423; 500; 502; 504] -> raw <> str "HTTP/1.1 " ++ print_int code ++ t) -> rv = EST_ERR_UNKNOWN \/ rv = EST_ERR_MULTIPART_PARSE.
Proof.
  intros X op reads k rv k' raw T A L N. destruct (is_keygen op) eqn:Ek.
  - unfold told in T. rewrite Ek in T. destruct T as (d & T).
    assert (St : first_status status_codes raw = -1).
    { destruct (Z.eq_dec (first_status status_codes raw) (-1)) as [|Q]; [assumption|]. destruct (no_status raw Q) as (code & t & I & E). destruct (N code t I E). }
    apply (keygen_status _ _ _ _ _ _ raw) in T; [|exact A|unfold EST_CA_MAX; lia]. rewrite St in T. destruct T as [T|(m & hs & rv' & c1 & S & T)]; [now right|]. left.
    unfold status_result in S. cbn [Z.eqb Pos.eqb] in S. injection S as <- _. now apply T.
  - left. pose proof (status_unknown reads raw op k A L N) as Q. eapply told_get; eauto.
Qed.
Lemma told_retry : forall X op reads k rv k' raw t, told X op reads k rv k' -> is_keygen op = false -> arrives reads raw -> raw = str "HTTP/1.1 202" ++ t -> len raw <= 1999955 ->
  (rv = EST_ERR_CA_ENROLL_RETRY /\ 0 <= k_delay k' <= 2147483647 /\ exists name v rest, case_eq name (str "Retry-After") /\ decimal v (k_delay k') /\ header_line raw name v rest) \/ rv = EST_ERR_INVALID_RETRY_VALUE.
Proof.
  intros X op reads k rv k' raw t T Ek A E L. destruct (retry_any reads raw t op k A E L) as (rv0 & c0 & Q & H). destruct (told_get _ _ _ _ _ _ _ _ _ Ek T Q) as [-> ->]. destruct H as [H|[H _]]; auto.
Qed.
Lemma retry_codes : forall m hs rv c rv' c', retry_loop m hs rv c = Ok (rv', c') -> rv = EST_ERR_CA_ENROLL_RETRY \/ rv = EST_ERR_INVALID_RETRY_VALUE -> rv' = EST_ERR_CA_ENROLL_RETRY \/ rv' = EST_ERR_INVALID_RETRY_VALUE.
Proof.
  intros m. induction hs as [|[a v] hs IH]; intros rv c rv' c' H R; cbn [retry_loop] in H; [injection H as <- <-; exact R|].
  repeat match type of H with bind ?x _ = _ => destruct x; [cbn [bind] in H|discriminate H] | (if ?b then _ else _) = _ => destruct b end; try (eapply IH; [exact H|auto]); discriminate.
Qed.
Lemma told_retry_keys : forall X op reads k rv k' raw t, told X op reads k rv k' -> is_keygen op = true -> arrives reads raw -> raw = str "HTTP/1.1 202" ++ t -> len raw <= 1999955 ->
  rv = EST_ERR_CA_ENROLL_RETRY \/ rv = EST_ERR_INVALID_RETRY_VALUE \/ rv = EST_ERR_MULTIPART_PARSE.
Proof.
  intros X op reads k rv k' raw t T Ek A E L. unfold told in T. rewrite Ek in T. destruct T as (d & T).
  assert (L0 : 0 < len raw < EST_CA_MAX) by (rewrite E at 1; rewrite len_app; change (len (str "HTTP/1.1 202")) with 12; pose proof (len_nonneg _ t); unfold EST_CA_MAX; lia).
  assert (St : first_status status_codes raw = 202) by (apply (status_line raw 202 t); [cbn; auto|exact E]).
  apply (keygen_status _ _ _ _ _ _ raw) in T; auto. rewrite St in T. destruct T as [T|(m & hs & rv' & c1 & S & T)]; [auto|].
  unfold status_result in S. cbn [Z.eqb Pos.eqb] in S.
  assert (R : rv' = EST_ERR_CA_ENROLL_RETRY \/ rv' = EST_ERR_INVALID_RETRY_VALUE) by (eapply retry_codes; [exact S|auto]).
  destruct R as [->| ->]; (destruct T as [-> _]; [discriminate|auto]).
Qed.
Lemma told_retry_exact : forall X op reads k rv k' d hs body, told X op reads k rv k' -> is_keygen op = false -> arrives reads d -> Spec.Server.response d 202 hs body -> clean_head d body -> plain_headers hs -> no_leading_newline body ->
  len d <= 1999955 -> forall h1 h h2 n, hs = h1 ++ h :: h2 -> retry_header h n -> Forall (fun h => forall n, ~ retry_header h n) h2 -> rv = EST_ERR_CA_ENROLL_RETRY /\ k_delay k' = n.
Proof.
  intros * T Ek A R Cl P N L h1 h h2 n E Rh F. destruct (retry_exact reads d hs body op k A R Cl P N L) as [Q _]. destruct (told_get _ _ _ _ _ _ _ _ _ Ek T (Q h1 h h2 n E Rh F)) as [-> ->]. auto.
Qed.
(** The last contact of a request that ends with a response. *)
Lemma fails_response : forall X op c w evs rv k pre reads, fails X op c w evs rv k -> evs = pre ++ [EResponse reads] -> rv <> EST_ERR_NONE /\ exists k0, told X op reads k0 rv k.
Proof.
  intros * H E. inversion H; subst; cbn [Datatypes.app] in *.
  1-2: change [conn c] with ([] ++ [conn c]) in *; match goal with Q : _ ++ [_] = _ ++ [_] |- _ => apply last_eq in Q as [_ Q] end; discriminate.
  1: match goal with Q : [conn ?c; ERequest ?q] = _ |- _ => change [conn c; ERequest q] with ([conn c] ++ [ERequest q]) in Q; apply last_eq in Q as [_ Q] end; discriminate.
  match goal with Q : [conn ?c; ERequest ?q; EResponse ?x] = _ |- _ => change [conn c; ERequest q; EResponse x] with ([conn c; ERequest q] ++ [EResponse x]) in Q; apply last_eq in Q as [_ Q]; injection Q as <- end. eauto.
Qed.
Lemma served_response : forall X op c w evs pre reads, served X op c w evs -> evs = pre ++ [EResponse reads] -> exists k0 k, told X op reads k0 EST_ERR_NONE k.
Proof.
  intros * (t & q & k & k' & _ & -> & T) E. change [conn c; ERequest q; EResponse (t_reads t)] with ([conn c; ERequest q] ++ [EResponse (t_reads t)]) in E. apply last_eq in E as [_ E]. injection E as <-. eauto.
Qed.
Lemma fails_nonempty : forall X op c w evs rv k, fails X op c w evs rv k -> evs <> [].
Proof. intros * H. inversion H; discriminate. Qed.
Lemma fails_connect : forall X op c w evs rv k pre sv p a, fails X op c w evs rv k -> evs = pre ++ [EConnect sv p a] -> pre = [] /\ (rv = why_unreached w \/ (rv = EST_ERR_HTTP_CANNOT_BUILD_HEADER /\ exists t w', w = Tls t :: w')).
Proof.
  intros * H E. destruct H as [|t Hr|t q k Hr Hw|t q k0 rv k' Hr Hw T N].
  - change [conn c] with ([] ++ [conn c]) in E. apply last_eq in E as [<- _]. auto.
  - change [conn c] with ([] ++ [conn c]) in E. apply last_eq in E as [<- _]. split; [reflexivity|]. right. split; [reflexivity|]. destruct Hr as [Hr _]. destruct w as [|a0 w]; [discriminate|]. injection Hr as ->. eauto.
  - change [conn c; ERequest q] with ([conn c] ++ [ERequest q]) in E. apply last_eq in E as [_ Q]. discriminate.
  - change [conn c; ERequest q; EResponse (t_reads t)] with ([conn c; ERequest q] ++ [EResponse (t_reads t)]) in E. apply last_eq in E as [_ Q]. discriminate.
Qed.
Lemma fails_request : forall X op c w evs rv k pre q, fails X op c w evs rv k -> evs = pre ++ [ERequest q] -> rv = EST_ERR_SSL_WRITE.
Proof.
  intros * H E. destruct H as [|t Hr|t q0 k Hr Hw|t q0 k0 rv k' Hr Hw T N]; [| |reflexivity|].
  - change [conn c] with ([] ++ [conn c]) in E. apply last_eq in E as [_ E]. discriminate.
  - change [conn c] with ([] ++ [conn c]) in E. apply last_eq in E as [_ E]. discriminate.
  - change [conn c; ERequest q0; EResponse (t_reads t)] with ([conn c; ERequest q0] ++ [EResponse (t_reads t)]) in E. apply last_eq in E as [_ Q]. discriminate.
Qed.
(** ** What is asked *)
Lemma built_text : forall X op c t body q, enrolls op -> fit c -> built X op body c t q -> exists auth tail, q = post_start (op_uri_name op) (len body) c ++ auth ++ CRLF ++ body ++ tail
  /\ match mode_scheme (k_mode (c_http c)) with None => auth = [] | Some sc => exists r, auth = OFFER sc ++ r end /\ (tail = CRLF \/ tail = [13; 0]) /\ len body <= 4096.
Proof.
  intros X op c t body q Eo F (h & B & Nh & C). unfold complete in C. unfold REQ_DATA_MAX, REQ_TOTAL in C. destruct (4096 <? len body) eqn:Lb; [discriminate|].
  destruct (5125 <? _) eqn:Lt; [discriminate|]. apply ok_inj in C. pose proof (len_nonneg _ body) as Lb0.
  destruct (post_facts (op_uri_name op) (len body) c F) as (W & A & L & N); [destruct op; cbn; intuition discriminate|destruct op; cbn; lia|lia|].
  assert (G : exists uri, add_auth X c t (post_start (op_uri_name op) (len body) c) uri = Ok h).
  { assert (S : snprintf_str (post_start (op_uri_name op) (len body) c) 5125 = post_start (op_uri_name op) (len body) c) by (apply snprintf_whole; lia).
    destruct Eo as [->|[->| ->]]; cbn [build_header op_uri_name] in *.
    - unfold est_client_build_enroll_header, REQ_TOTAL in B. rewrite S in B. destruct (add_auth X c t _ _) as [h'|] eqn:E; [|discriminate]. cbn [bind] in B. eexists. rewrite E. destruct (5125 <? len h'); [injection B as <-; discriminate|congruence].
    - unfold est_client_build_reenroll_header, REQ_TOTAL in B. rewrite S in B. destruct (add_auth X c t _ _) as [h'|] eqn:E; [|discriminate]. cbn [bind] in B. eexists. rewrite E. destruct (HDR_MAX <? len h'); [injection B as <-; discriminate|congruence].
    - unfold est_client_build_server_keygen_header, REQ_TOTAL in B. rewrite S in B. eexists. exact B. }
  destruct G as (uri & Ea). apply add_auth_text in Ea; [|exact L]. exists (match mode_scheme (k_mode (c_http c)) with None => [] | Some _ => skipn (length (post_start (op_uri_name op) (len body) c)) h end), (if 5125 - len (h ++ CRLF ++ body) =? 2 then [13; 0] else CRLF).
  assert (Lb' : len body <= 4096) by lia.
  destruct (mode_scheme _) as [sc|].
  - destruct Ea as [->|(r & ->)]; [discriminate|]. rewrite skipn_app, skipn_all, Nat.sub_diag. cbn [skipn Datatypes.app]. split; [rewrite <- C, <- !app_assoc; reflexivity|]. split; [eauto|]. split; [destruct (_ =? 2); auto|exact Lb'].
  - subst h. cbn [Datatypes.app]. split; [rewrite <- C, <- !app_assoc; reflexivity|]. split; [reflexivity|]. split; [destruct (_ =? 2); auto|exact Lb'].
Qed.
Lemma contact_asks : forall X op body c w evs r q, contact X op body c w evs r -> In (ERequest q) evs -> exists t, built X op body c t q.
Proof. intros * H I. inversion H; subst; cbn in I; repeat (destruct I as [I|I]; [try discriminate I; injection I as <-; eauto|]); try destruct I. Qed.
Lemma contact_client : forall X op body c w evs e k x c1, contact X op body c w evs (Ok (e, k, x, c1)) -> c1 = c \/ exists h, c1 = put_http h c.
Proof. intros * H. inversion H; subst; eauto. Qed.
Lemma course_asks : forall X g op body c w evs r w' q, course X g op body c w evs r w' -> In (ERequest q) evs -> exists h t, built X op body (put_http h c) t q.
Proof.
  intros * H I.
  assert (G : forall evs r, contact X op body c w evs r -> In (ERequest q) evs -> exists h t, built X op body (put_http h c) t q).
  { intros evs0 r0 K I0. destruct (contact_asks _ _ _ _ _ _ _ _ K I0) as [t T]. exists (c_http c), t. now destruct c. }
  inversion H as [? Hc|? ? ? ? ? Hc|evs1 c1 sc q1 reads evs2 ? Hg Hc He Ha Hm Hm1 Hc2]; subst; eauto.
  apply in_app_or in I as [I|I]; [eauto|]. destruct (contact_asks _ _ _ _ _ _ _ _ Hc2 I) as [t T]. destruct (contact_client _ _ _ _ _ _ _ _ _ _ Hc) as [->|[h ->]]; [exists (c_http c), t; now destruct c|eauto].
Qed.
