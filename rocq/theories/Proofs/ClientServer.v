(** Responses of the server as the client reads them, and limits. *)
From Coq Require Import String ZArith List Bool Lia ZifyBool ZifyNat.
From Verif Require Import Base Spec.Http Spec.UriPath Spec.Server Spec.Client Model.CLib Model.EstErr Model.HttpServer Model.Uri Model.AuthHdr Model.Server Model.ClientHttp
  Proofs.EstErr Proofs.HttpParse Proofs.HttpRender Proofs.Uri Proofs.ServerAuth Proofs.ServerEnroll Proofs.ServerRequest Proofs.ServerProps Proofs.ServerReply
  Proofs.ClientHeaders Proofs.ClientHttp Proofs.ClientRender.
Import ListNotations.
Open Scope Z_scope.

(** ** Sizes *)
Lemma read_raw_big : forall segs acc rest, Forall (fun d => d <> []) segs -> len acc < EST_CA_MAX -> EST_CA_MAX < len acc + len (concat segs) ->
  exists raw, est_io_read_raw (map Data segs ++ rest) acc = (EST_ERR_READ_BUFFER_TOO_SMALL, raw).
Proof.
  induction segs as [|d segs IH]; intros acc rest F L B; cbn [map Datatypes.app concat] in *; [change (len (@nil Z)) with 0 in B; lia|].
  inversion F as [|? ? Fd Fs]; subst. rewrite len_app in B. cbn [est_io_read_raw]. pose proof (len_nonneg _ d).
  replace (len d =? 0) with false. 2: { destruct d; [contradiction|]. rewrite len_cons. pose proof (len_nonneg _ d). lia. }
  destruct (len d <? EST_CA_MAX - len acc) eqn:E1; [apply IH; [assumption|rewrite len_app; lia|rewrite len_app; lia]|].
  destruct (len d =? EST_CA_MAX - len acc) eqn:E2; [|eauto].
  destruct segs as [|p segs]; [change (len (concat [])) with 0 in B; lia|]. inversion Fs; subst. cbn [map Datatypes.app]. destruct p; [contradiction|]. eauto.
Qed.
Lemma too_big : forall segs rest op c, Forall (fun d => d <> []) segs -> 2000000 < len (concat segs) ->
  est_io_get_response (map Data segs ++ rest) op c = Ok (EST_ERR_READ_BUFFER_TOO_SMALL, Untouched, c).
Proof.
  intros segs rest op c F L. unfold est_io_get_response.
  destruct (read_raw_big segs [] rest F) as (raw & E); [reflexivity|unfold EST_CA_MAX; change (len (@nil Z)) with 0; lia|]. rewrite E. reflexivity.
Qed.
Lemma no_answer : forall rest op c, est_io_get_response (Data [] :: rest) op c = Ok (EST_ERR_HTTP_NOT_FOUND, Untouched, c).
Proof. reflexivity. Qed.
Lemma broken : forall segs rest op c, Forall (fun d => d <> []) segs -> len (concat segs) < 2000000 ->
  est_io_get_response (map Data segs ++ Failed :: rest) op c = Ok (EST_ERR_SSL_READ, Untouched, c).
Proof.
  intros segs rest op c F L. unfold est_io_get_response.
  assert (G : forall acc, len acc + len (concat segs) < EST_CA_MAX -> exists r, est_io_read_raw (map Data segs ++ Failed :: rest) acc = (EST_ERR_SSL_READ, r)).
  { clear L. induction segs as [|d segs IH]; intros acc L; cbn [map Datatypes.app concat est_io_read_raw] in *; [eauto|]. inversion F as [|? ? Fd Fs]; subst. rewrite len_app in L.
    pose proof (len_nonneg _ (concat segs)). pose proof (len_nonneg _ d). pose proof (len_nonneg _ acc).
    replace (len d =? 0) with false. 2: { destruct d; [contradiction|]. rewrite len_cons. pose proof (len_nonneg _ d). lia. }
    replace (len d <? EST_CA_MAX - len acc) with true by lia. apply IH; [assumption|]. rewrite len_app. lia. }
  destruct (G []) as (r & E); [unfold EST_CA_MAX; change (len (@nil Z)) with 0; lia|]. rewrite E. reflexivity.
Qed.

(** ** Safety *)
Lemma safe : forall evs op c, (forall segs more, evs = map Data segs ++ Data [] :: more -> len (concat segs) <= 1999955) ->
  exists r, est_io_get_response evs op c = Ok r.
Proof.
  intros evs op c L. destruct (est_io_read_raw evs []) as [rv raw] eqn:R.
  destruct (EstErr.err_eqb rv EST_ERR_NONE) eqn:E.
  - apply err_eqb_eq in E. subst rv. destruct (read_sound _ _ R) as (segs & more & Ev & Es). specialize (L _ _ Ev). rewrite Es in L.
    destruct (Z_le_dec (len raw) 0) as [Z0|Z0].
    + unfold est_io_get_response. rewrite R. change (negb (EstErr.err_eqb EST_ERR_NONE EST_ERR_NONE)) with false. cbv iota. replace (len raw <=? 0) with true by lia. eauto.
    + destruct (response_run evs raw op c R) as (r & d & c' & H & _); [lia|unfold EST_CA_MAX; lia|]. eauto.
  - unfold est_io_get_response. rewrite R, E. cbn [negb]. eauto.
Qed.
Lemma over_read : forall d rest op c, len d = 2000000 -> ~ In 0 d -> est_io_get_response (Data d :: Data [] :: rest) op c = UB.
Proof.
  intros d rest op c L N. unfold est_io_get_response. cbn [est_io_read_raw].
  replace (len d =? 0) with false by lia. change (len (@nil Z)) with 0. unfold EST_CA_MAX.
  replace (len d <? 2000000 - 0) with false by lia. replace (len d =? 2000000 - 0) with true by lia. cbn [Datatypes.app].
  change (negb (EstErr.err_eqb EST_ERR_NONE EST_ERR_NONE)) with false. cbv iota. replace (len d <=? 0) with false by lia.
  replace (Z.to_nat (2000000 - len d)) with 0%nat by lia. cbn [repeat]. rewrite app_nil_r.
  unfold parse_response_headers. replace (cstr_at d 0) with (@UB bytes); [reflexivity|]. symmetry. rewrite cstr_at_len.
  replace ((0 <=? 0) && (0 <=? len d)) with true by lia. change (Z.to_nat 0) with 0%nat. cbn [skipn]. now apply cstr_none.
Qed.
Lemma sixteen : forall m m1 cur hs, parse_response_headers m = Ok (m1, cur, hs) -> (length hs <= 16)%nat.
Proof.
  intros m m1 cur hs P. destruct (parse_any _ _ P) as (t & Et). pose proof (block_post m t) as B. cbv zeta in B.
  destruct (B Et) as (m1' & hs' & P' & _ & L & _). rewrite P in P'. assert (hs' = hs) by congruence. now subst.
Qed.

(** ** Retry responses *)
Lemma first_status_in : forall raw code, first_status status_codes raw = code -> In code (-1 :: status_codes).
Proof.
  intros raw code <-. generalize status_codes as l. induction l as [|x l IH]; cbn [first_status]; [now left|]. destruct (prefixb _ _); [right; now left|].
  destruct IH as [IH|IH]; [now left|right; now right].
Qed.
Lemma prefix_conflict : forall p a b (t u : bytes), p ++ a ++ t = p ++ b ++ u -> len a = len b -> a = b.
Proof.
  intros p a b t u E L. apply app_inv_head in E. revert b L E. induction a as [|x a IH]; intros [|y b] L E; auto; rewrite ?len_cons in *.
  - change (len (@nil Z)) with 0 in L. pose proof (len_nonneg _ b). lia.
  - change (len (@nil Z)) with 0 in L. pose proof (len_nonneg _ a). lia.
  - cbn [Datatypes.app] in E. assert (x = y) by congruence. subst y. f_equal. apply IH; [lia|congruence].
Qed.
Lemma status_line : forall raw code t, In code status_codes -> raw = str "HTTP/1.1 " ++ print_int code ++ t -> first_status status_codes raw = code.
Proof.
  intros raw code t I E. assert (P : forall x, In x status_codes -> prefixb (str "HTTP/1.1 " ++ print_int x) raw = true -> x = code).
  { intros x Ix Q. apply prefixb_spec in Q as (u & Q). rewrite E, <- app_assoc in Q.
    assert (L : forall y, In y status_codes -> len (print_int y) = 3) by (intros y Iy; cbn in Iy; repeat destruct Iy as [<-|Iy]; try reflexivity; contradiction).
    apply prefix_conflict in Q; [|rewrite !L by assumption; reflexivity].
    cbn in I, Ix. repeat destruct I as [<-|I]; try contradiction; repeat destruct Ix as [<-|Ix]; try contradiction; try reflexivity; discriminate. }
  assert (Q : prefixb (str "HTTP/1.1 " ++ print_int code) raw = true) by (apply prefixb_spec; exists t; now rewrite <- app_assoc).
  revert I P. generalize status_codes as l. induction l as [|x l IH]; intros I P; [contradiction|]. cbn [first_status].
  destruct (prefixb (str "HTTP/1.1 " ++ print_int x) raw) eqn:Px; [apply P; [now left|assumption]|]. apply IH.
  - destruct I as [->|I]; [congruence|assumption].
  - intros y Iy. apply P. now right.
Qed.
Lemma no_status : forall raw, first_status status_codes raw <> -1 -> exists code t, In code status_codes /\ raw = str "HTTP/1.1 " ++ print_int code ++ t.
Proof.
  intros raw. generalize status_codes as l. induction l as [|x l IH]; cbn [first_status]; intro H; [contradiction|].
  destruct (prefixb (str "HTTP/1.1 " ++ print_int x) raw) eqn:P.
  - apply prefixb_spec in P as (t & ->). exists x, t. split; [now left|]. now rewrite <- app_assoc.
  - destruct (IH H) as (code & t & I & E). exists code, t. split; [now right|assumption].
Qed.

Lemma retry_any : forall evs raw t op c, arrives evs raw -> raw = str "HTTP/1.1 202" ++ t -> len raw <= 1999955 ->
  exists rv c', est_io_get_response evs op c = Ok (rv, Untouched, c')
  /\ ((rv = EST_ERR_CA_ENROLL_RETRY /\ 0 <= k_delay c' <= 2147483647
       /\ exists name v rest, case_eq name (str "Retry-After") /\ decimal v (k_delay c') /\ header_line raw name v rest)
      \/ (rv = EST_ERR_INVALID_RETRY_VALUE /\ k_delay c' = 0)).
Proof.
  intros evs raw t op c A E L. destruct (response_run evs raw op c) as (rv & d & c' & H & _ & S202 & _).
  - apply read_arrives; [assumption|]. unfold EST_CA_MAX. lia.
  - rewrite E, len_app. change (len (str "HTTP/1.1 202")) with 12. pose proof (len_nonneg _ t). lia.
  - unfold EST_CA_MAX. lia.
  - destruct S202 as [Q ->]. { apply (status_line raw 202 t); [cbn; auto|exact E]. }
    exists rv, c'. split; [exact H|]. destruct (raw_lines raw) as (head & Er & F).
    destruct (retry_cases (the_text raw)) as [N|(h1 & h & h2 & n & Et & R & N)].
    + rewrite retry_none in Q by assumption. assert (rv = EST_ERR_INVALID_RETRY_VALUE) by congruence. assert (c' = set_delay 0 (set_status 202 c)) by congruence.
      subst. right. auto.
    + rewrite Et, (retry_last _ _ _ n) in Q by assumption. assert (rv = EST_ERR_CA_ENROLL_RETRY) by congruence.
      assert (c' = set_delay n (set_delay 0 (set_status 202 c))) by congruence. subst rv c'. left. split; [reflexivity|]. cbn [k_delay set_delay].
      destruct R as (R1 & R2 & R3). split; [split; [eapply decimal_nonneg; eassumption|assumption]|].
      exists (fst h), (snd h), (the_body raw). repeat split; try apply R2; auto.
      rewrite Forall_forall in F. destruct (F h) as [C|C]; [rewrite Et; apply in_or_app; right; now left| |assumption].
      exfalso. destruct R2 as (R2 & _). contradiction.
Qed.
Lemma retry_exact : forall evs d hs body op c, arrives evs d -> response d 202 hs body -> clean_head d body -> plain_headers hs -> no_leading_newline body ->
  len d <= 1999955 ->
  (forall h1 h h2 n, hs = h1 ++ h :: h2 -> retry_header h n -> Forall (fun h => forall n, ~ retry_header h n) h2 ->
     est_io_get_response evs op c = Ok (EST_ERR_CA_ENROLL_RETRY, Untouched, set_delay n (set_status 202 c)))
  /\ (Forall (fun h => forall n, ~ retry_header h n) hs ->
     est_io_get_response evs op c = Ok (EST_ERR_INVALID_RETRY_VALUE, Untouched, set_delay 0 (set_status 202 c))).
Proof.
  intros evs d hs body op c A R H0 Hp Hb L. destruct (response_run evs d op c) as (rv & d' & c' & H & _ & S202 & _).
  - apply read_arrives; [assumption|]. unfold EST_CA_MAX. lia.
  - destruct R as (num & reason & _ & _ & _ & _ & ->). rewrite len_app. change (len (str "HTTP/1.1 ")) with 9. pose proof (len_nonneg _ (num ++ str " " ++ reason ++ CRLF ++ concat (map render_header hs) ++ CRLF ++ body)). lia.
  - unfold EST_CA_MAX. lia.
  - destruct (the_response _ _ _ _ R H0 Hp Hb) as [T B]. destruct (S202 (status_of _ _ _ _ R ltac:(cbn; auto))) as [Q ->]. rewrite T in Q. rewrite H. split.
    + intros h1 h h2 n -> Rh N. rewrite (retry_last _ _ _ n) in Q by assumption. assert (rv = EST_ERR_CA_ENROLL_RETRY) by congruence.
      assert (c' = set_delay n (set_delay 0 (set_status 202 c))) by congruence. subst. reflexivity.
    + intro N. rewrite retry_none in Q by assumption. assert (rv = EST_ERR_INVALID_RETRY_VALUE) by congruence. assert (c' = set_delay 0 (set_status 202 c)) by congruence. now subst.
Qed.

(** ** Status to error *)
Lemma status_any : forall evs raw code t op c, arrives evs raw -> In code [204; 400; 401; 404; 423; 500; 502; 504] ->
  raw = str "HTTP/1.1 " ++ print_int code ++ t -> len raw <= 1999955 ->
  exists c', est_io_get_response evs op c = Ok (status_error code, Untouched, c') /\ k_status c' = code /\ k_delay c' = k_delay c /\ (code <> 401 -> c' = set_status code c).
Proof.
  intros evs raw code t op c A I E L. destruct (response_run evs raw op c) as (rv & d & c' & H & S200 & S202 & S401 & Other).
  - apply read_arrives; [assumption|]. unfold EST_CA_MAX. lia.
  - rewrite E, len_app. change (len (str "HTTP/1.1 ")) with 9. pose proof (len_nonneg _ (print_int code ++ t)). lia.
  - unfold EST_CA_MAX. lia.
  - assert (St : first_status status_codes raw = code) by (apply (status_line raw code t); [cbn in I |- *; intuition|exact E]). rewrite St in *. rewrite H.
    destruct (Z.eq_dec code 401) as [->|N].
    + destruct (S401 eq_refl) as (-> & -> & D & S & _). exists c'. repeat split; auto. congruence.
    + destruct Other as (-> & -> & ->); [intros ->; cbn in I; intuition discriminate|intros ->; cbn in I; intuition discriminate|assumption|]. exists (set_status code c). repeat split; auto.
Qed.
Lemma status_unknown : forall evs raw op c, arrives evs raw -> 0 < len raw <= 1999955 ->
  (forall code t, In code [200; 202; 204; 400; 401; 404; 423; 500; 502; 504] -> raw <> str "HTTP/1.1 " ++ print_int code ++ t) ->
  est_io_get_response evs op c = Ok (EST_ERR_UNKNOWN, Untouched, set_status (-1) c).
Proof.
  intros evs raw op c A L N. destruct (response_run evs raw op c) as (rv & d & c' & H & S200 & S202 & S401 & Other).
  - apply read_arrives; [assumption|]. unfold EST_CA_MAX. lia.
  - lia.
  - unfold EST_CA_MAX. lia.
  - assert (St : first_status status_codes raw = -1).
    { destruct (Z.eq_dec (first_status status_codes raw) (-1)) as [|Q]; [assumption|]. destruct (no_status raw Q) as (code & t & I & E). destruct (N code t I E). }
    rewrite St in *. destruct Other as (-> & -> & ->); try discriminate. exact H.
Qed.

(** ** The server's replies *)
Section P.
Context {cert csr key E : Type}.
Variable A : @app cert key E.
Variable keep : Z -> bool.
Notation st := (@st E).

Definition retry_headers (delay : Z) : list (bytes * bytes) := [(str "Status", str "202 Accepted"); (str "Retry-After", print_int delay)].
Lemma retry_sent : forall delay s w r, est_send_http_error A keep delay EST_ERR_CA_ENROLL_RETRY s = (w, r) -> all_sent w ->
  sent w = str "HTTP/1.1 202 Accepted" ++ CRLF ++ concat (map render_header (retry_headers delay)) ++ CRLF.
Proof.
  intros delay s w r H AS. unfold est_send_http_error in H.
  apply mbind_inv in H as [[H _]|(e1 & rv & s1 & e2 & H1 & H & ->)].
  { destruct (writes_retry A _ _ _ _ H) as (_ & x & s' & Q & _). discriminate. }
  unfold send_http_retry_after in H1.
  apply mbind_inv in H1 as [[H1 _]|(e3 & [] & s2 & e4 & H2 & H1 & ->)]; [discriminate|]. inversion H2; subst. clear H2.
  match type of H1 with mbind (mg_write A ?d) _ ?s1 = _ => destruct (write_run A d s1) as (ok & s3 & Q & _ & Cd) end.
  apply mbind_inv in H1 as [[H1 _]|(e5 & ok' & s5 & e6 & H5 & H1 & ->)]; [rewrite Q in H1; discriminate|].
  rewrite Q in H5. injection H5 as <- <- <-. injection H1 as <- <- <-. cbn [Datatypes.app] in *.
  apply all_sent_cons in AS as [-> AS]. injection H as <- <-. cbn [sent]. rewrite app_nil_r.
  unfold retry_headers, hdr, render_header, CRLF, EOL. cbn [map concat fst snd]. rewrite <- !app_assoc. reflexivity.
Qed.
Lemma dec_plain : forall z, 0 <= z -> Forall (fun c => 48 <= c <= 57) (print_int z) /\ print_int z <> [].
Proof. intros z Hz. destruct (print_int_decimal z Hz) as (N & F & _). auto. Qed.
Lemma retry_plain : forall delay, 0 <= delay -> plain_headers (retry_headers delay).
Proof.
  intros delay Hd. destruct (dec_plain delay Hd) as [F N]. split; [unfold len; cbn; lia|]. constructor; [|constructor; [|constructor]]; repeat split; cbn [fst snd].
  - discriminate.
  - repeat constructor; cbn; intuition discriminate.
  - repeat constructor; cbn; intuition discriminate.
  - discriminate.
  - discriminate.
  - repeat constructor; cbn; intuition discriminate.
  - eapply Forall_impl; [|exact F]. cbn. intuition lia.
  - destruct (print_int delay); [contradiction|]. inversion F; subst. cbn. lia.
Qed.
Lemma retry_end_to_end : forall delay s w r evs op c, 0 <= delay <= 2147483647 -> est_send_http_error A keep delay EST_ERR_CA_ENROLL_RETRY s = (w, r) -> all_sent w ->
  arrives evs (sent w) -> est_io_get_response evs op c = Ok (EST_ERR_CA_ENROLL_RETRY, Untouched, set_delay delay (set_status 202 c)).
Proof.
  intros delay s w r evs op c Hd H AS Ar. pose proof (retry_sent _ _ _ _ H AS) as Sw.
  assert (Lp : len (print_int delay) <= 32).
  { unfold print_int. replace (delay <? 0) with false by lia.
    assert (G : forall f z acc, (length (dec_digits f z acc) <= f + length acc)%nat).
    { induction f as [|f IH]; intros z acc; cbn [dec_digits]; [lia|]. destruct (z <? 10); [cbn; lia|]. specialize (IH (z / 10) ((48 + z mod 10) :: acc)). cbn [length] in IH. lia. }
    specialize (G (S (Z.to_nat (Z.log2 delay))) delay []). cbn [length] in G. unfold len.
    assert (Z.log2 delay <= 30). { change 30 with (Z.log2 2147483647). apply Z.log2_le_mono. lia. } lia. }
  assert (R : response (sent w) 202 (retry_headers delay) []).
  { rewrite Sw. exists (str "202"), (str "Accepted"). split; [num|]. split; [reflexivity|]. split; [line|]. split.
    - constructor; [split; line|constructor; [split; line|constructor]].
    - rewrite app_nil_r. rewrite <- ?app_assoc. reflexivity. }
  destruct (dec_plain delay ltac:(lia)) as [Fd Nd].
  assert (Nn : ~ In 0 (sent w)).
  { rewrite Sw. unfold retry_headers, render_header. cbn [map concat fst snd]. intro I. rewrite !in_app_iff in I.
    assert (P : forall l, forallb (fun c => negb (c =? 0)) l = true -> ~ In 0 l) by (intros l Hf; now apply no_nul_lit).
    rewrite Forall_forall in Fd. assert (P0 : ~ In 0 (print_int delay)) by (intro Q; specialize (Fd _ Q); cbn in Fd; lia).
    repeat match goal with H : _ \/ _ |- _ => destruct H as [H|H] end; try contradiction; try (revert I; apply P; reflexivity). }
  refine (proj1 (retry_exact evs (sent w) (retry_headers delay) [] op c Ar R _ (retry_plain delay ltac:(lia)) _ _) [(str "Status", str "202 Accepted")] (str "Retry-After", print_int delay) [] delay eq_refl _ _).
  - exists (sent w). rewrite app_nil_r. auto.
  - split; discriminate.
  - rewrite Sw. unfold retry_headers, render_header, CRLF. cbn [map concat fst snd]. rewrite !len_app.
    change (len (str "HTTP/1.1 202 Accepted")) with 21. change (len [13; 10]) with 2. change (len (str "Status")) with 6. change (len (str ": ")) with 2.
    change (len (str "202 Accepted")) with 12. change (len (str "Retry-After")) with 11. change (len (@nil Z)) with 0. lia.
  - split; [reflexivity|]. split; [apply print_int_decimal; lia|lia].
  - constructor.
Qed.
Lemma errors_end_to_end : forall delay er s w r evs op c, 0 <= delay -> er <> EST_ERR_CA_ENROLL_RETRY -> est_send_http_error A keep delay er s = (w, r) -> all_sent w ->
  arrives evs (sent w) -> len (sent w) <= 1999955 ->
  exists c', est_io_get_response evs op c = Ok (status_error (http_status er), Untouched, c') /\ k_status c' = http_status er.
Proof.
  intros delay er s w r evs op c Hd Ne H AS Ar L. destruct (error_replies A keep delay er s w r Hd H AS) as (s' & hs & body & _ & R & _).
  assert (I : In (http_status er) [204; 400; 401; 404; 423; 500; 502; 504]) by (destruct er; try congruence; cbn; auto 10).
  pose proof (status_of _ _ _ _ R ltac:(cbn in I |- *; intuition)) as St.
  destruct (no_status (sent w)) as (code & t & Ic & Et); [rewrite St; intro Q; rewrite Q in I; cbn in I; intuition discriminate|].
  assert (code = http_status er) by (rewrite <- St; symmetry; eapply status_line; eauto). subst code.
  destruct (status_any evs (sent w) (http_status er) t op c Ar I Et L) as (c' & G & K & _). eauto.
Qed.
End P.
