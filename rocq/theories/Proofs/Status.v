(** BRSKI status messages. *)
From Coq Require Import String ZArith List Bool Lia ZifyBool ZifyNat.
From Verif Require Import Base Spec.Base64 Spec.Http Spec.Client Spec.Multipart Spec.ClientCalls Model.CLib Model.Codec Model.EstErr Model.HttpServer Model.Uri Model.AuthHdr Model.ClientHttp Model.Multipart Model.Host Model.Client Model.Status
  Proofs.EstErr Proofs.HttpParse Proofs.ClientHttp Proofs.ClientRender Proofs.Codec Proofs.Uri Proofs.ServerReply Proofs.ClientModes Proofs.ClientCalls Spec.Status.
Import ListNotations.
Open Scope Z_scope.

(** ** A text has one reading *)
Lemma string_fun : forall s t, string_text s t -> forall s' t' r r', string_text s' t' -> t ++ 34 :: r = t' ++ 34 :: r' -> s = s' /\ r = r'.
Proof.
  induction 1 as [|c s t H1 H2 H3 H IH|c e s t I H IH]; intros s' t' r r' H' E; inversion H' as [|c' s1 t1 P1 P2 P3 Q|c' e' s1 t1 I' Q]; subst; cbn in E.
  - injection E as <-. auto.
  - exfalso; injection E; intros; congruence.
  - discriminate.
  - exfalso; injection E; intros; congruence.
  - injection E as -> E. destruct (IH _ _ _ _ Q E) as [-> ->]. auto.
  - exfalso; injection E; intros; congruence.
  - discriminate.
  - exfalso; injection E; intros; congruence.
  - injection E as -> E. destruct (IH _ _ _ _ Q E) as [-> ->]. split; [|reflexivity]. f_equal. cbn in I, I'.
    repeat match goal with H : _ \/ _ |- _ => destruct H as [H|H] end; try contradiction; congruence.
Qed.
Lemma spaces_fun : forall w w' c c' r r', spaces w -> spaces w' -> ~ In c [9; 10; 13; 32] -> ~ In c' [9; 10; 13; 32] -> w ++ c :: r = w' ++ c' :: r' -> w = w' /\ c = c' /\ r = r'.
Proof.
  induction w as [|x w IH]; intros [|y w'] c c' r r' S S' N N' E; cbn in E.
  - injection E as <- <-. auto.
  - injection E as -> _. inversion_clear S'. contradiction.
  - injection E as -> _. inversion_clear S. contradiction.
  - injection E as -> E. inversion_clear S. inversion_clear S'. destruct (IH _ _ _ _ _ H0 H2 N N' E) as (-> & -> & ->). auto.
Qed.
(** What may follow a value. *)
Definition stops (r : bytes) : Prop := exists w c u, r = w ++ c :: u /\ spaces w /\ (c = 44 \/ c = 125).
Lemma value_fun : forall v t v' t' r r', value_text v t -> value_text v' t' -> stops r -> stops r' -> t ++ r = t' ++ r' -> v = v' /\ r = r'.
Proof.
  intros v t v' t' r r' H H' S S' E. inversion H as [| |s u Hs]; inversion H' as [| |s' u' Hs']; subst; try (cbn in E; discriminate).
  - injection E as <-. auto.
  - injection E as <-. auto.
  - cbn in E. injection E as E. rewrite <- !app_assoc in E. cbn in E. destruct (string_fun _ _ Hs _ _ _ _ Hs' E) as [-> ->]. auto.
Qed.
Lemma member_fun : forall m t m' t' c r c' r', member_text m t -> member_text m' t' -> c = 44 \/ c = 125 -> c' = 44 \/ c' = 125 ->
  t ++ c :: r = t' ++ c' :: r' -> m = m' /\ c = c' /\ r = r'.
Proof.
  intros [n v] t [n' v'] t' c r c' r' (w1 & tn & w2 & w3 & tv & w4 & -> & S1 & S2 & S3 & S4 & Hn & Hv) (x1 & un & x2 & x3 & uv & x4 & -> & T1 & T2 & T3 & T4 & Kn & Kv) C C' E.
  cbn [fst snd] in *. rewrite <- !app_assoc in E. cbn [Datatypes.app] in E.
  apply spaces_fun in E as (_ & _ & E); auto; try (cbn; lia).
  apply (string_fun _ _ Hn _ _ _ _ Kn) in E as [-> E].
  apply spaces_fun in E as (_ & _ & E); auto; try (cbn; lia).
  assert (V : forall v t, value_text v t -> exists c u, t = c :: u /\ ~ In c [9; 10; 13; 32]) by (intros ? ? [| |]; cbn; eexists _, _; (split; [reflexivity|cbn; lia])).
  pose proof E as E0. destruct (V _ _ Hv) as (a & u & Ea & Na). destruct (V _ _ Kv) as (b & u' & Eb & Nb).
  assert (E1 : w3 = x3). { rewrite Ea, Eb in E. cbn [Datatypes.app] in E. apply spaces_fun in E as (-> & _ & _); auto. }
  subst x3. apply app_inv_head in E0.
  apply (value_fun _ _ _ _ _ _ Hv Kv) in E0 as [-> E0]; [|eexists _, _, _; split; [reflexivity|auto]..].
  apply spaces_fun in E0 as (_ & -> & ->); auto; cbn; lia.
Qed.
Lemma members_fun : forall ms t, members_text ms t -> forall ms' t' r r', members_text ms' t' -> t ++ 125 :: r = t' ++ 125 :: r' -> ms = ms' /\ r = r'.
Proof.
  induction 1 as [m t H|m t ms u H H2 IH]; intros ms' t' r r' H' E; inversion H' as [m' t1 K|m' t1 ms1 u1 K K2]; subst.
  - destruct (member_fun _ _ _ _ _ _ _ _ H K (or_intror eq_refl) (or_intror eq_refl) E) as (-> & _ & ->). auto.
  - rewrite <- !app_assoc in E. cbn in E. destruct (member_fun _ _ _ _ _ _ _ _ H K (or_intror eq_refl) (or_introl eq_refl) E) as (_ & C & _). discriminate.
  - rewrite <- !app_assoc in E. cbn in E. destruct (member_fun _ _ _ _ _ _ _ _ H K (or_introl eq_refl) (or_intror eq_refl) E) as (_ & C & _). discriminate.
  - rewrite <- !app_assoc in E. cbn in E. destruct (member_fun _ _ _ _ _ _ _ _ H K (or_introl eq_refl) (or_introl eq_refl) E) as (-> & _ & E').
    destruct (IH _ _ _ _ K2 E') as [-> ->]. auto.
Qed.
Theorem object_fun : forall ms ms' t, object ms t -> object ms' t -> ms = ms'.
Proof.
  intros ms ms' t (u & -> & H) (u' & E & H'). cbn in E. injection E as E. destruct (members_fun _ _ H _ _ [] [] H') as [-> _]; [|reflexivity]. exact E.
Qed.

Lemma plain_text : forall s, plain s -> string_text s s.
Proof. induction 1 as [|c s (A & B & C) _ IH]; [constructor|constructor; auto]. Qed.
Lemma lit_plain : forall s, forallb (fun c => (32 <=? c) && negb (c =? 34) && negb (c =? 92)) s = true -> plain s.
Proof. intros s H. unfold plain. rewrite Forall_forall. rewrite forallb_forall in H. intros c I. specialize (H c I). lia. Qed.
Lemma lit_spaces : forall s, forallb (fun c => (c =? 9) || (c =? 10) || (c =? 13) || (c =? 32)) s = true -> spaces s.
Proof. intros s H. unfold spaces. rewrite Forall_forall. rewrite forallb_forall in H. intros c I. specialize (H c I). cbn. lia. Qed.
Ltac spc := apply lit_spaces; reflexivity.

Definition voucher_message (st r : bytes) : bytes :=
  str "{" ++ CRLF ++ QUOTE ++ str "version" ++ QUOTE ++ str ":" ++ QUOTE ++ BRSKI_VERSION ++ QUOTE ++ str "," ++ CRLF
  ++ QUOTE ++ str "Status" ++ QUOTE ++ str ":" ++ st ++ str "," ++ CRLF
  ++ QUOTE ++ str "Reason" ++ QUOTE ++ str ":" ++ QUOTE ++ r ++ QUOTE ++ CRLF ++ str "}".
Definition enroll_message (st r s64 : bytes) : bytes :=
  str "{" ++ CRLF ++ QUOTE ++ str "version" ++ QUOTE ++ str ":" ++ QUOTE ++ BRSKI_VERSION ++ QUOTE ++ str "," ++ CRLF
  ++ QUOTE ++ str "Status" ++ QUOTE ++ str ":" ++ st ++ str "," ++ CRLF
  ++ QUOTE ++ str "Reason" ++ QUOTE ++ str ":" ++ QUOTE ++ r ++ QUOTE ++ str "," ++ CRLF
  ++ QUOTE ++ str "SubjectKeyIdentifier" ++ QUOTE ++ str ":" ++ QUOTE ++ s64 ++ QUOTE ++ CRLF ++ str "}".
Lemma member_of : forall n v t w1 w4, plain n -> value_text v t -> spaces w1 -> spaces w4 -> member_text (n, v) (w1 ++ [34] ++ n ++ [34] ++ [58] ++ t ++ w4).
Proof.
  intros n v t w1 w4 N V S1 S4. exists w1, n, [], [], t, w4. split; [rewrite <- ?app_assoc; reflexivity|]. repeat split; auto; try spc. now apply plain_text.
Qed.
Lemma string_value : forall r, plain r -> value_text (Text r) ([34] ++ r ++ [34]).
Proof. intros r P. constructor. now apply plain_text. Qed.
Lemma status_value : forall status st, status_str status = Some st -> value_text (Truth (status =? 1)) st.
Proof.
  intros status st H. unfold status_str in H. destruct (status =? 1) eqn:E1; [injection H as <-; constructor|]. destruct (status =? 2); [injection H as <-; constructor|discriminate].
Qed.
Lemma voucher_object : forall status st r, status_str status = Some st -> plain r ->
  object [(str "version", Text (str "1")); (str "Status", Truth (status =? 1)); (str "Reason", Text r)] (voucher_message st r).
Proof.
  intros status st r S P.
  exists ((CRLF ++ [34] ++ str "version" ++ [34] ++ [58] ++ ([34] ++ str "1" ++ [34]) ++ []) ++ [44] ++ (CRLF ++ [34] ++ str "Status" ++ [34] ++ [58] ++ st ++ []) ++ [44] ++ (CRLF ++ [34] ++ str "Reason" ++ [34] ++ [58] ++ ([34] ++ r ++ [34]) ++ CRLF)).
  split; [unfold voucher_message, QUOTE, CRLF, BRSKI_VERSION; rewrite ?app_nil_r, <- ?app_assoc; reflexivity|].
  constructor; [|constructor; [|constructor]]; apply member_of; try spc; try (apply lit_plain; reflexivity); try (apply string_value; exact P).
  - apply string_value, lit_plain. reflexivity.
  - now apply status_value.
Qed.
Lemma enroll_object : forall status st r s64, status_str status = Some st -> plain r -> plain s64 ->
  object [(str "version", Text (str "1")); (str "Status", Truth (status =? 1)); (str "Reason", Text r); (str "SubjectKeyIdentifier", Text s64)] (enroll_message st r s64).
Proof.
  intros status st r s64 S P P64.
  exists ((CRLF ++ [34] ++ str "version" ++ [34] ++ [58] ++ ([34] ++ str "1" ++ [34]) ++ []) ++ [44] ++ (CRLF ++ [34] ++ str "Status" ++ [34] ++ [58] ++ st ++ []) ++ [44] ++ (CRLF ++ [34] ++ str "Reason" ++ [34] ++ [58] ++ ([34] ++ r ++ [34]) ++ [])
    ++ [44] ++ (CRLF ++ [34] ++ str "SubjectKeyIdentifier" ++ [34] ++ [58] ++ ([34] ++ s64 ++ [34]) ++ CRLF)).
  split; [unfold enroll_message, QUOTE, CRLF, BRSKI_VERSION; rewrite ?app_nil_r, <- ?app_assoc; reflexivity|].
  constructor; [|constructor; [|constructor; [|constructor]]]; apply member_of; try spc; try (apply lit_plain; reflexivity); try (apply string_value; assumption).
  - apply string_value, lit_plain. reflexivity.
  - now apply status_value.
Qed.
Ltac lits := repeat match goal with |- context [len (str ?x)] => let v := eval vm_compute in (len (str x)) in change (len (str x)) with v end; change (len CRLF) with 2; change (len QUOTE) with 1; change (len BRSKI_VERSION) with 1.
Lemma status_len : forall status st, status_str status = Some st -> 4 <= len st <= 5.
Proof. intros status st H. unfold status_str in H. destruct (status =? 1); [injection H as <-; cbn; lia|]. destruct (status =? 2); [injection H as <-; cbn; lia|discriminate]. Qed.
Lemma voucher_len : forall st r, len st <= 5 -> len r <= 255 -> len (voucher_message st r) < 383.
Proof. intros st r H1 H2. unfold voucher_message. rewrite !len_app. lits. lia. Qed.
Lemma enroll_len : forall st r s64, len st <= 5 -> len r <= 255 -> len s64 <= 32 -> len (enroll_message st r s64) < 383.
Proof. intros st r s64 H1 H2 H3. unfold enroll_message. rewrite !len_app. lits. lia. Qed.

(** ** The request *)
Lemma snprintf_cases : forall s n, 0 < n -> snprintf_str s n = s \/ len (snprintf_str s n) = n - 1.
Proof.
  intros s n H. unfold snprintf_str. replace (n <=? 0) with false by lia. destruct (Z_le_gt_dec (len s) (n - 1)) as [L|L].
  - left. apply firstn_all2. unfold len in L. lia.
  - right. unfold len in *. rewrite firstn_length. lia.
Qed.
(** Either the whole Authorization header fits, or the buffer is full. *)
Lemma add_auth_whole : forall X c t hdr uri h, add_auth X c t hdr uri = Ok h -> len hdr <= 1000 -> t_rnd t <> None ->
  h = hdr \/ (exists v, h = hdr ++ render_header (str "Authorization", v)) \/ len h = 5124.
Proof.
  intros X c t hdr uri h H L N. unfold add_auth in H. set (cr := if c_cb c then t_cred t else no_cred) in *. clearbody cr.
  destruct (t_rnd t) as [rnd|]; [|congruence]. unfold est_client_add_auth_hdr in H.
  assert (G : forall p v, p = str "Authorization: " -> h = hdr ++ snprintf_str (p ++ v ++ [13; 10]) (5125 - len hdr) ->
    h = hdr \/ (exists v, h = hdr ++ render_header (str "Authorization", v)) \/ len h = 5124).
  { intros p v -> ->. destruct (snprintf_cases (str "Authorization: " ++ v ++ [13; 10]) (5125 - len hdr)) as [E|E]; [lia| |].
    - right. left. exists v. rewrite E. reflexivity.
    - right. right. rewrite len_app, E. lia. }
  destruct (k_mode (c_http c)).
  - left. congruence.
  - destruct (client_cred _ _ _) as [u p]. destruct (est_base64_encode _ _ _ _) as [[n blk]|]; [|discriminate]. cbn [bind] in H. destruct (cstr blk) as [b|]; [|discriminate]. cbn [bind] in H.
    apply ok_inj in H. apply (G (str "Authorization: ") (str "Basic " ++ b) eq_refl). rewrite <- app_assoc. symmetry. exact H.
  - destruct (est_hex_to_str _ _ _); [|discriminate]. cbn [bind] in H. destruct (cstr _) as [cn|]; [|discriminate]. cbn [bind] in H. destruct (client_cred _ _ _) as [u p].
    destruct (255 <=? len (c_user c)); [discriminate|]. destruct (est_client_generate_auth_digest _ _ _ _ _ _ _) as [dg|]; [|discriminate]. cbn [bind] in H. apply ok_inj in H.
    match type of H with hdr ++ snprintf_str (?p0 ++ ?m) _ = _ => idtac end.
    apply (G (str "Authorization: ") (str "Digest username=" ++ [34] ++ u ++ [34] ++ str ", realm=" ++ [34] ++ k_realm (c_http c) ++ [34]
           ++ str ", nonce=" ++ [34] ++ k_nonce (c_http c) ++ [34] ++ str ", uri=" ++ [34] ++ uri ++ [34]
           ++ str ", cnonce=" ++ [34] ++ cn ++ [34] ++ str ", nc=00000001, qop=" ++ [34] ++ str "auth" ++ [34]
           ++ str ", response=" ++ [34] ++ dg ++ [34]) eq_refl). rewrite <- !app_assoc. rewrite <- H. reflexivity.
  - destruct (est_base64_encode _ _ _ _) as [[n blk]|]; [|discriminate]. cbn [bind] in H. destruct (cstr blk) as [b|]; [|discriminate]. cbn [bind] in H.
    apply ok_inj in H. apply (G (str "Authorization: ") (str "Bearer " ++ b) eq_refl). rewrite <- app_assoc. symmetry. exact H.
  - left. congruence.
Qed.
Definition fits (c : client) : Prop := len (c_server c) <= 255 /\ 0 <= c_port c <= 65535 /\ match c_path c with Some p => len p <= 128 | None => True end.
Definition target (c : client) (name : bytes) : bytes := str "/.well-known/est" ++ match c_path c with Some p => str "/" ++ p | None => [] end ++ str "/" ++ name.
Definition fixed_headers (c : client) (n : bytes) : list (bytes * bytes) :=
  [(str "User-Agent", AGENT); (str "Connection", str "close"); (str "Host", c_server c ++ str ":" ++ print_int (c_port c)); (str "Accept", str "*/*");
   (str "Content-Type", str "application/json"); (str "Content-Length", n)].
Lemma fixed_text : forall c name n, request_start (str "POST") name c ++ str "Content-Type: application/json" ++ CRLF ++ str "Content-Length: " ++ n ++ CRLF
  = str "POST" ++ str " " ++ target c name ++ str " " ++ str "HTTP/1.1" ++ CRLF ++ concat (map render_header (fixed_headers c n)).
Proof.
  intros c name n. unfold request_start, target, fixed_headers, render_header. cbn [map concat fst snd]. rewrite ?app_nil_r, <- !app_assoc. reflexivity.
Qed.
Lemma first_is : forall hs1 name v hs2, Forall (fun h => ~ case_eq (fst h) name) hs1 -> first_header (hs1 ++ (name, v) :: hs2) name v.
Proof. intros. exists hs1, name, hs2. repeat split. assumption. Qed.
Lemma request_posts : forall X c t body name h q, fits c -> len name <= 20 -> len body <= 4096 -> t_rnd t <> None ->
  est_client_brski_build_status_header X c t (len body) name = Ok h -> complete h body = Ok q -> posts (target c name) body q.
Proof.
  intros X c t body name h q (F1 & F2 & F3) Ln Lb N H Q. unfold est_client_brski_build_status_header in H.
  pose proof (len_nonneg _ body) as P0.
  assert (L : len (request_start (str "POST") name c ++ str "Content-Type: application/json" ++ CRLF ++ str "Content-Length: " ++ print_int (len body) ++ CRLF) <= 1000).
  { pose proof (print_len (len body) ltac:(lia)) as Pl. pose proof (print_len (c_port c) F2) as Pc. unfold request_start, AGENT. rewrite !len_app.
    assert (len match c_path c with Some p => str "/" ++ p | None => [] end <= 129) by (destruct (c_path c); [rewrite len_app; lits; lia|cbn; lia]).
    lits. lia. }
  rewrite snprintf_whole in H by (unfold REQ_TOTAL; lia).
  destruct (add_auth_whole _ _ _ _ _ _ H L N) as [E|[(v & E)|E]].
  3: { exfalso. unfold complete, REQ_DATA_MAX, REQ_TOTAL in Q. replace (4096 <? len body) with false in Q by lia. rewrite !len_app in Q. change (len CRLF) with 2 in Q.
       replace (5125 <? _) with true in Q by lia. discriminate. }
  all: unfold complete in Q; destruct (REQ_DATA_MAX <? len body); [discriminate|]; destruct (REQ_TOTAL <? _); [discriminate|]; apply ok_inj in Q; rewrite fixed_text in E.
  - exists (fixed_headers c (print_int (len body))), (if REQ_TOTAL - len (h ++ CRLF ++ body) =? 2 then [13; 0] else CRLF), (print_int (len body)). split.
    + rewrite <- Q. subst h. unfold render_head. rewrite <- !app_assoc. reflexivity.
    + split; [destruct (_ =? 2); reflexivity|]. split; [|split; [|apply print_int_decimal; lia]].
      * apply (first_is (firstn 4 (fixed_headers c (print_int (len body)))) _ _ (skipn 5 (fixed_headers c (print_int (len body))))). repeat constructor; discriminate.
      * apply (first_is (firstn 5 (fixed_headers c (print_int (len body)))) _ _ []). repeat constructor; discriminate.
  - exists (fixed_headers c (print_int (len body)) ++ [(str "Authorization", v)]), (if REQ_TOTAL - len (h ++ CRLF ++ body) =? 2 then [13; 0] else CRLF), (print_int (len body)). split.
    + rewrite <- Q. subst h. unfold render_head. rewrite map_app, concat_app. cbn [map concat]. rewrite app_nil_r, <- !app_assoc. reflexivity.
    + split; [destruct (_ =? 2); reflexivity|]. split; [|split; [|apply print_int_decimal; lia]].
      * apply (first_is (firstn 4 (fixed_headers c (print_int (len body)))) _ _ (skipn 5 (fixed_headers c (print_int (len body))) ++ [(str "Authorization", v)])). repeat constructor; discriminate.
      * apply (first_is (firstn 5 (fixed_headers c (print_int (len body)))) _ _ [(str "Authorization", v)]). repeat constructor; discriminate.
Qed.

(** ** Responses *)
Lemma retry_errors : forall m hs rv c rv' c', retry_loop m hs rv c = Ok (rv', c') -> rv' = rv \/ rv' = EST_ERR_CA_ENROLL_RETRY.
Proof.
  intros m hs. induction hs as [|[n v] hs IH]; intros rv c rv' c' H; cbn [retry_loop] in H; [left; congruence|].
  repeat match type of H with
  | context [match ?x with Ok _ => _ | UB => _ end] => destruct x; cbn [bind] in H; try discriminate
  | bind ?x _ = _ => destruct x; cbn [bind] in H; try discriminate
  | (if ?b then _ else _) = _ => destruct b
  end; try (apply IH in H; intuition congruence); intuition congruence.
Qed.
Lemma none_200 : forall evs op c d c', est_io_get_response evs op c = Ok (EST_ERR_NONE, d, c') -> exists raw, arrives evs raw /\ starts (str "HTTP/1.1 200") raw.
Proof.
  intros evs op c d c' H. unfold est_io_get_response in H.
  destruct (est_io_read_raw evs []) as [rv0 raw] eqn:R.
  destruct (negb (err_eqb rv0 EST_ERR_NONE)) eqn:N0; [apply negb_true_iff in N0; assert (rv0 = EST_ERR_NONE) by congruence; subst; discriminate|]. apply negb_false_iff, err_eqb_eq in N0. subst rv0.
  exists raw. split; [now apply read_arrived|].
  destruct (len raw <=? 0); [discriminate|].
  remember (raw ++ repeat 0 (Z.to_nat (EST_CA_MAX - len raw))) as m eqn:Em.
  destruct (parse_response_headers m) as [[[m1 cur] hs]|]; [|discriminate]. cbn [bind] in H.
  destruct (status_result m1 hs _ _) as [[rv1 c1]|] eqn:St; [|discriminate]. cbn [bind] in H.
  assert (rv1 = EST_ERR_NONE). { destruct (err_eqb rv1 EST_ERR_NONE) eqn:E; [now apply err_eqb_eq|]. congruence. } subst rv1. clear H.
  apply status_200. revert St. unfold est_io_parse_response_status_code. rewrite Em, first_status_zeros. unfold status_result.
  destruct (first_status status_codes raw =? 200) eqn:S2; [lia|]. intro St. exfalso.
  repeat (match type of St with (if ?b then _ else _) = _ => destruct b; [try congruence|] end); try congruence.
  - apply retry_errors in St as [St|St]; discriminate.
  - destruct (k_mode _); try congruence; destruct (est_io_parse_http_auth_request m1 hs _); discriminate.
Qed.

(** ** One message *)
Definition only_http (c c' : client) : Prop := exists k, c' = put_http k c.
Lemma only_http_refl : forall c, only_http c c.
Proof. intros c. exists (c_http c). destruct c. reflexivity. Qed.
Lemma only_http_trans : forall a b c, only_http a b -> only_http b c -> only_http a c.
Proof. intros a b c [k ->] [k' ->]. exists k'. reflexivity. Qed.
Lemma send_run : forall X op body t c w evs r, send_status X op body t {| s_c := c; s_env := w |} = (evs, r) ->
  (evs = [] /\ r = UB)
  \/ exists h q, est_client_brski_build_status_header X c t (len body) (status_name op) = Ok h /\ complete h body = Ok q
     /\ ((evs = [ERequest q] /\ exists c', only_http c c' /\ r = Ok (EST_ERR_SSL_WRITE, {| s_c := c'; s_env := w |}))
         \/ (evs = [ERequest q; EResponse (t_reads t)]
             /\ (r = UB \/ exists e d k, est_io_get_response (t_reads t) op (set_status 0 (c_http c)) = Ok (e, d, k) /\ r = Ok (e, {| s_c := put_http k c; s_env := w |})))).
Proof.
  intros X op body t c w evs r H. unfold send_status in H. run_in H.
  destruct (est_client_brski_build_status_header X c t (len body) (status_name op)) as [h|] eqn:Bh; [|left; injection H as <- <-; auto].
  destruct (complete h body) as [q|] eqn:Cq; [|left; injection H as <- <-; auto].
  right. exists h, q. split; [reflexivity|]. split; [exact Cq|]. unfold exchange in H. run_in H. destruct (t_write t); run_in H; cbn [negb] in H.
  - right. unfold get_response in H. run_in H. cbn [c_http put_http] in H.
    destruct (est_io_get_response _ _ _) as [[[e d] k]|] eqn:G; injection H as <- <-; (split; [reflexivity|]); [|now left]. right. exists e, d, k. split; [exact eq_refl|reflexivity].
  - left. injection H as <- <-. split; [reflexivity|]. eexists. split; [|reflexivity]. eexists. reflexivity.
Qed.

(** What a delivery does: at most two connections, the second after a 401; each
    request is the message; success only after a 200. *)
Definition sound_try (P : bytes -> Prop) (N : list event -> Prop) (try : session -> M est_error) (w : list attempt) (c0 : client) : Prop :=
  forall t c w' evs r, In (Tls t) w -> only_http c0 c -> try t {| s_c := c; s_env := w' |} = (evs, r) ->
    (forall q, In (ERequest q) evs -> P q) /\ connects evs = 0%nat
    /\ match r with UB => True | Ok (e, s) => only_http c0 (s_c s) /\ s_env s = w' /\ (e = EST_ERR_NONE -> N evs) end.
Lemma twice_sound : forall X P (N : list event -> Prop) try c w evs r, (forall a b, N b -> N (a ++ b)) -> sound_try P N try w c -> twice X false try {| s_c := c; s_env := w |} = (evs, r) ->
  (forall q, In (ERequest q) evs -> P q) /\ (1 <= connects evs <= 2)%nat /\ hd_error evs = Some (conn c)
  /\ match r with UB => True | Ok (e, _, s) => only_http c (s_c s) /\ (e = EST_ERR_NONE -> N evs) end.
Proof.
  intros X P N try c w evs r Ha Ht H. unfold twice in H. unfold mbind at 1 in H. destruct (connect_run X c w) as (r1 & E1 & H1). rewrite E1 in H.
  assert (Cn : forall evs, connects (conn c :: evs) = S (connects evs)) by reflexivity.
  assert (Ca : forall a b, connects (a ++ b) = (connects a + connects b)%nat) by (intros a b; unfold connects; now rewrite filter_app, app_length).
  assert (Un : forall e, unreached e -> e <> EST_ERR_NONE) by (intros e I ->; cbn in I; unfold unreached in I; cbn in I; intuition discriminate).
  assert (Qc : forall q c', ~ In (ERequest q) [conn c']) by (intros q c' [C|[]]; discriminate).
  assert (Tw : forall t, In t (tl w) -> In t w) by (intros t; destruct w; [intros []|now right]).
  destruct r1 as [[[e|t] s]|]; [destruct H1 as [He ->]|destruct H1 as [Hr ->]|injection H as <- <-; repeat split; auto; intros q I; now apply Qc in I].
  { injection H as <- <-. repeat split; auto; [intros q I; now apply Qc in I|apply only_http_refl|]. intro C. now apply Un in C. }
  destruct Hr as [Hw _]. unfold mbind at 1 in H. destruct (try t {| s_c := c; s_env := tl w |}) as [ev1 r1] eqn:T1.
  destruct (Ht t c (tl w) ev1 r1) as (Q1 & C1 & R1); auto; [destruct w; [discriminate|]; cbn in Hw; injection Hw as ->; now left|apply only_http_refl|].
  destruct r1 as [[e s1]|]; [|injection H as <- <-; split; [|split; [|split]]; auto; [intros q [I|I]; [discriminate|auto]|change (1 <= connects (conn c :: ev1) <= 2)%nat; rewrite Cn, C1; lia]].
  destruct R1 as (O1 & W1 & N1). unfold mbind at 1, get in H.
  assert (One : forall e' b s', (e' = EST_ERR_NONE -> e = EST_ERR_NONE) -> s' = s1 -> (conn c :: ev1, Ok (e', b, s')) = (evs, r) ->
    (forall q, In (ERequest q) evs -> P q) /\ (1 <= connects evs <= 2)%nat /\ hd_error evs = Some (conn c) /\ match r with UB => True | Ok (e, _, s) => only_http c (s_c s) /\ (e = EST_ERR_NONE -> N evs) end).
  { intros e' b s' I -> K. injection K as <- <-. split; [intros q [J|J]; [discriminate|auto]|]. split; [rewrite Cn, C1; lia|]. split; [reflexivity|]. split; [exact O1|]. intro Z. apply (Ha [conn c]). auto. }
  destruct (err_eqb e EST_ERR_AUTH_FAIL && match k_mode (c_http (s_c s1)) with AUTH_DIGEST | AUTH_BASIC | AUTH_TOKEN => true | _ => false end) eqn:Ea.
  2: { cbn in H. rewrite !app_nil_r in H. eapply One; [| |exact H]; auto. }
  destruct (mode_eqb (k_mode (c_http (s_c s1))) AUTH_DIGEST && x_fips X).
  { cbn in H. rewrite !app_nil_r in H. eapply One; [| |exact H]; auto. discriminate. }
  destruct s1 as [c1 w1]. cbn [s_c s_env] in *. subst w1.
  assert (Ec : conn c1 = conn c) by (destruct O1 as [k ->]; reflexivity).
  unfold mbind at 1 in H. destruct (connect_run X c1 (tl w)) as (r2 & E2 & H2). rewrite E2, Ec in H.
  assert (QQ : forall ev2, (forall q, In (ERequest q) ev2 -> P q) -> forall q, In (ERequest q) (conn c :: ev1 ++ conn c :: ev2) -> P q).
  { intros ev2 Q2 q [I|I]; [discriminate|]. apply in_app_iff in I as [I|[I|I]]; [auto|discriminate|auto]. }
  assert (CC : forall ev2, connects ev2 = 0%nat -> (1 <= connects (conn c :: ev1 ++ conn c :: ev2) <= 2)%nat) by (intros ev2 E; rewrite Cn, Ca, Cn, C1, E; lia).
  destruct r2 as [[[e2|t2] s2]|]; [destruct H2 as [He2 ->]|destruct H2 as [Hr2 ->]|cbn in H; injection H as <- <-; split; [apply (QQ []); intros q []|]; split; [apply (CC []); reflexivity|split; auto]].
  { cbn in H. injection H as <- <-. split; [apply (QQ []); intros q []|]. split; [apply (CC []); reflexivity|]. split; [reflexivity|]. split; [exact O1|]. intro C. now apply Un in C. }
  destruct Hr2 as [Hw2 _]. unfold mbind at 1 in H. destruct (try t2 {| s_c := c1; s_env := tl (tl w) |}) as [ev2 r2] eqn:T2.
  destruct (Ht t2 c1 (tl (tl w)) ev2 r2) as (Q2 & C2 & R2); auto; [apply Tw; destruct (tl w); [discriminate|]; cbn in Hw2; injection Hw2 as ->; now left|].
  destruct r2 as [[e2 s2]|]; cbn in H; injection H as <- <-; rewrite ?app_nil_r; (split; [now apply QQ|]); (split; [now apply CC|]); (split; [reflexivity|]); [|exact I].
  destruct R2 as (O2 & _ & N2). split; [exact O2|]. intro Z. change (conn c :: ev1 ++ conn c :: ev2) with ((conn c :: ev1) ++ [conn c] ++ ev2). apply Ha, Ha. auto.
Qed.

Definition confirmed (evs : list event) : Prop := exists b q r d, evs = b ++ [ERequest q; EResponse r] /\ arrives r d /\ starts (str "HTTP/1.1 200") d.
Definition random (w : list attempt) : Prop := forall t, In (Tls t) w -> t_rnd t <> None.
Lemma deliver_run : forall X op body c w evs r, fits c -> random w -> len body <= 382 ->
  deliver_status X op body {| s_c := c; s_env := w |} = (evs, r) ->
  (forall q, In (ERequest q) evs -> posts (target c (status_name op)) body q) /\ (1 <= connects evs <= 2)%nat /\ hd_error evs = Some (conn c)
  /\ match r with UB => True | Ok (e, s) => only_http c (s_c s) /\ (e = EST_ERR_NONE -> confirmed evs) end.
Proof.
  intros X op body c w evs r F R L H. unfold deliver_status in H. unfold mbind at 1 in H.
  destruct (twice X false (send_status X op body) {| s_c := c; s_env := w |}) as [ev1 r1] eqn:T.
  destruct (twice_sound X (posts (target c (status_name op)) body) confirmed (send_status X op body) c w ev1 r1) as (Q & C & Hd & Rr); auto.
  - intros a b (b0 & q & rr & d & -> & A & S). exists (a ++ b0), q, rr, d. split; [apply app_assoc|auto].
  - intros t c1 w1 ev r0 I O K. destruct O as [k Ek]. destruct (send_run _ _ _ _ _ _ _ _ K) as [[-> ->]|(h & q & Bh & Cq & D)]; [split; [intros q []|split; [reflexivity|exact Logic.I]]|].
    assert (Pq : posts (target c (status_name op)) body q).
    { replace (target c (status_name op)) with (target c1 (status_name op)) by (subst c1; reflexivity). eapply request_posts; [| |lia|apply R; exact I|exact Bh|exact Cq].
      - subst c1. exact F.
      - destruct op; cbn; lia. }
    destruct D as [(-> & c' & O' & ->)|(-> & D)].
    + split; [intros q' [J|[]]; injection J as <-; exact Pq|]. split; [reflexivity|]. cbn [s_c s_env]. split; [eapply only_http_trans; [exists k; exact Ek|exact O']|]. split; [reflexivity|discriminate].
    + split; [intros q' [J|[J|[]]]; [injection J as <-; exact Pq|discriminate]|]. split; [reflexivity|]. destruct D as [->|(e & d & k' & G & ->)]; [exact Logic.I|]. cbn [s_c s_env].
      split; [subst c1; exists k'; reflexivity|]. split; [reflexivity|]. intros ->. destruct (none_200 _ _ _ _ _ G) as (raw & A & S). exists [], q, (t_reads t), raw. auto.
  - destruct r1 as [[[e n] s]|]; [|injection H as <- <-; auto]. destruct Rr as [O Nn]. destruct n; cbn in H; injection H as <- <-; rewrite !app_nil_r; (split; [exact Q|]); (split; [exact C|]); (split; [exact Hd|]); cbn [s_c]; split; auto.
    destruct O as [k ->]. eexists. reflexivity.
Qed.

(** ** The calls *)
Lemma strnlen_min : forall s r n, no_nul s -> strnlen_s (s ++ 0 :: r) n = Ok (Z.min (len s) (Z.of_nat n)).
Proof.
  induction s as [|c s IH]; intros r n N; destruct n as [|n]; cbn [strnlen_s Datatypes.app].
  - reflexivity.
  - reflexivity.
  - rewrite len_cons. pose proof (len_nonneg _ s). f_equal. lia.
  - assert (c <> 0) by (intros ->; apply N; now left). replace (c =? 0) with false by lia. rewrite IH by (intro I; apply N; now right). cbn [bind]. rewrite len_cons. f_equal. lia.
Qed.
Definition voucher_good (c : client) (mode : bool) (status : Z) (reason : option bytes) : Prop :=
  c_init c = true /\ mode = true /\ (status = 1 \/ status = 2) /\ exists r, reason = Some r /\ hd 0 r <> 10 /\ len r <= 255.
Lemma status_some : forall status, status = 1 \/ status = 2 -> exists st, status_str status = Some st.
Proof. intros status [->| ->]; eexists; reflexivity. Qed.
Lemma voucher_run : forall X c w mode status reason, (forall r, reason = Some r -> no_nul r) ->
  (exists r st, reason = Some r /\ status_str status = Some st /\ len r <= 255 /\ voucher_good c mode status reason
     /\ est_client_brski_send_voucher_status X mode status reason {| s_c := c; s_env := w |} = deliver_status X OP_BRSKI_VOUCHER_STATUS (voucher_message st r) {| s_c := c; s_env := w |})
  \/ (~ voucher_good c mode status reason /\ exists e, In e [EST_ERR_CLIENT_NOT_INITIALIZED; EST_ERR_INVALID_PARAMETERS]
      /\ est_client_brski_send_voucher_status X mode status reason {| s_c := c; s_env := w |} = ([], Ok (e, {| s_c := c; s_env := w |}))).
Proof.
  intros X c w mode status reason Hr. unfold est_client_brski_send_voucher_status. run.
  assert (Bad : forall e, In e [EST_ERR_CLIENT_NOT_INITIALIZED; EST_ERR_INVALID_PARAMETERS] -> ~ voucher_good c mode status reason -> forall P, P \/ (~ voucher_good c mode status reason /\ exists e', In e' [EST_ERR_CLIENT_NOT_INITIALIZED; EST_ERR_INVALID_PARAMETERS]
    /\ (@nil event, Ok (e, {| s_c := c; s_env := w |})) = ([], Ok (e', {| s_c := c; s_env := w |})))) by (intros e I N P; right; split; [exact N|]; exists e; auto).
  destruct (c_init c) eqn:Ci; cbn [negb]; [|apply Bad; [cbn; auto|intros (A & _); congruence]].
  destruct mode; cbn [negb]; [|apply Bad; [cbn; auto|intros (_ & A & _); congruence]].
  destruct (status_str status) as [st|] eqn:Es.
  2: { apply Bad; [cbn; auto|]. intros (_ & _ & S & _). destruct (status_some _ S). congruence. }
  assert (S12 : status = 1 \/ status = 2) by (unfold status_str in Es; destruct (status =? 1) eqn:A; [left; lia|]; destruct (status =? 2) eqn:B; [right; lia|discriminate]).
  destruct reason as [r|]; [|apply Bad; [cbn; auto|intros (_ & _ & _ & r & A & _); congruence]].
  destruct (hd 0 r =? 10) eqn:H10.
  { apply Bad; [cbn; auto|]. intros (_ & _ & _ & r' & A & B & _). injection A as <-. lia. }
  pose proof (strnlen_min r [] (Z.to_nat (EST_BRSKI_MAX_REASON_LEN + 1)) (Hr _ eq_refl)) as Ln. rewrite Ln. cbn [bind]. unfold EST_BRSKI_MAX_REASON_LEN. 
  destruct (255 <? Z.min (len r) (Z.of_nat (Z.to_nat (255 + 1)))) eqn:Lr.
  { apply Bad; [cbn; auto|]. intros (_ & _ & _ & r' & A & _ & B). injection A as <-. lia. }
  assert (L : len r <= 255) by lia. left. exists r, st. split; [reflexivity|]. split; [reflexivity|]. split; [exact L|]. split; [repeat split; auto; exists r; repeat split; auto; lia|].
  fold (voucher_message st r). rewrite snprintf_whole by (apply voucher_len; [|exact L]; apply status_len in Es; lia).
  destruct (deliver_status X OP_BRSKI_VOUCHER_STATUS (voucher_message st r) _) as [ev r0]. reflexivity.
Qed.

Definition enroll_good (c : client) (mode : bool) (status : Z) (r id : bytes) : Prop :=
  c_init c = true /\ mode = true /\ (status = 1 \/ status = 2) /\ len r <= 255 /\ hd 0 id <> 10 /\ 1 <= len id <= 24.
Lemma enroll_run : forall X c w mode status r id rest, no_nul r -> no_nul id -> all_bytes id ->
  (exists st, status_str status = Some st /\ enroll_good c mode status r id
     /\ est_client_brski_send_enroll_status X mode status (Some r) (Some (id ++ 0 :: rest)) {| s_c := c; s_env := w |}
        = deliver_status X OP_BRSKI_ENROLL_STATUS (enroll_message st r (b64_encode id)) {| s_c := c; s_env := w |})
  \/ (~ enroll_good c mode status r id /\ exists e, In e [EST_ERR_CLIENT_NOT_INITIALIZED; EST_ERR_INVALID_PARAMETERS]
      /\ est_client_brski_send_enroll_status X mode status (Some r) (Some (id ++ 0 :: rest)) {| s_c := c; s_env := w |} = ([], Ok (e, {| s_c := c; s_env := w |}))).
Proof.
  intros X c w mode status r id rest Nr Ni Bi. unfold est_client_brski_send_enroll_status. run.
  assert (Bad : forall e, In e [EST_ERR_CLIENT_NOT_INITIALIZED; EST_ERR_INVALID_PARAMETERS] -> ~ enroll_good c mode status r id -> forall P, P \/ (~ enroll_good c mode status r id /\ exists e', In e' [EST_ERR_CLIENT_NOT_INITIALIZED; EST_ERR_INVALID_PARAMETERS]
    /\ (@nil event, Ok (e, {| s_c := c; s_env := w |})) = ([], Ok (e', {| s_c := c; s_env := w |})))) by (intros e I N P; right; split; [exact N|]; exists e; auto).
  destruct (c_init c) eqn:Ci; cbn [negb]; [|apply Bad; [cbn; auto|intros (A & _); congruence]].
  destruct mode; cbn [negb]; [|apply Bad; [cbn; auto|intros (_ & A & _); congruence]].
  destruct (status_str status) as [st|] eqn:Es.
  2: { apply Bad; [cbn; auto|]. intros (_ & _ & S & _). destruct (status_some _ S). congruence. }
  assert (S12 : status = 1 \/ status = 2) by (unfold status_str in Es; destruct (status =? 1) eqn:A; [left; lia|]; destruct (status =? 2) eqn:B; [right; lia|discriminate]).
  pose proof (strnlen_min r [] (Z.to_nat (EST_BRSKI_MAX_REASON_LEN + 1)) Nr) as Ln. rewrite Ln. cbn [bind]. unfold EST_BRSKI_MAX_REASON_LEN.
  destruct (255 <? Z.min (len r) (Z.of_nat (Z.to_nat (255 + 1)))) eqn:Lr.
  { apply Bad; [cbn; auto|]. intros (_ & _ & _ & A & _). lia. }
  assert (L : len r <= 255) by lia. rewrite andb_false_r.
  assert (R0 : rd (id ++ 0 :: rest) 0 = Ok (hd 0 id)) by (destruct id; reflexivity). rewrite R0. cbn [bind].
  destruct (hd 0 id =? 10) eqn:H10.
  { apply Bad; [cbn; auto|]. intros (_ & _ & _ & _ & A & _). lia. }
  rewrite (strnlen_min id rest _ Ni). cbn [bind]. unfold EST_BRSKI_MAX_SUBJ_KEY_ID_LEN.
  destruct (24 <? Z.min (len id) (Z.of_nat (Z.to_nat (24 + 1)))) eqn:Li.
  { apply Bad; [cbn; auto|]. intros (_ & _ & _ & _ & _ & A). lia. }
  replace (firstn (Z.to_nat (Z.min (len id) (Z.of_nat (Z.to_nat (24 + 1))))) (id ++ 0 :: rest)) with id.
  2: { rewrite firstn_app, firstn_all2 by (unfold len in *; lia). replace (_ - _)%nat with 0%nat by (unfold len in *; lia). cbn [firstn]. now rewrite app_nil_r. }
  destruct id as [|i0 id'] eqn:Eid.
  { change (est_base64_encode [] (repeat 0 (Z.to_nat (24 * 2))) (24 * 2) false) with (Ok (0, repeat 0 (Z.to_nat (24 * 2)))). cbn [bind]. apply Bad; [cbn; auto|]. intros (_ & _ & _ & _ & _ & A). cbn in A. lia. }
  rewrite <- Eid in *. assert (Li' : 1 <= len id <= 24). { subst id. rewrite len_cons in *. pose proof (len_nonneg _ id'). lia. } clear Eid i0 id'.
  pose proof (b64_encode_len id) as L64. pose proof (encode_fits' id (repeat 0 (Z.to_nat 48)) 48 false) as En. change (24 * 2) with 48. cbv zeta in En. rewrite En; [|intros ->; cbn in Li'; lia|apply len_repeat|unfold b64_text_len; lia]. clear En. cbn [bind].
  replace (len (b64_encode id) =? 0) with false by lia.
  assert (N64 : no_nul (b64_encode id)). { intro I. pose proof (b64_encode_txt id Bi) as F. rewrite Forall_forall in F. specialize (F 0 I). unfold b64_txt in F. cbn in F. lia. }
  assert (Cs : forall z, cstr (b64_encode id ++ 0 :: z) = Ok (b64_encode id)).
  { intro z. pose proof (cstr_at_app [] (b64_encode id) z N64) as Q. exact Q. }
  rewrite Cs. cbn [bind].
  left. exists st. split; [reflexivity|]. split; [repeat split; auto; lia|].
  fold (enroll_message st r (b64_encode id)). rewrite snprintf_whole by (apply enroll_len; [|exact L|lia]; apply status_len in Es; lia).
  destruct (deliver_status X OP_BRSKI_ENROLL_STATUS (enroll_message st r (b64_encode id)) _) as [ev r0]. reflexivity.
Qed.
Lemma b64_char_plain : forall v, 0 <= v < 64 -> 32 <= b64_char v /\ b64_char v <> 34 /\ b64_char v <> 92.
Proof. intros v H. unfold b64_char. destruct (v <? 26) eqn:?; [lia|]. destruct (v <? 52) eqn:?; [lia|]. destruct (v <? 62) eqn:?; [lia|]. destruct (v =? 62); lia. Qed.
Lemma b64_plain : forall d, all_bytes d -> plain (b64_encode d).
Proof.
  unfold plain. induction d as [|a|a b|a b c t IH] using list3_ind; intro H; cbn [b64_encode].
  - constructor.
  - inversion H; subst. unfold is_byte in *. do 2 (constructor; [apply b64_char_plain; lia|]). repeat constructor; lia.
  - inversion H as [|? ? Ha H']; subst. inversion H' as [|? ? Hb _]; subst. unfold is_byte in *. do 3 (constructor; [apply b64_char_plain; lia|]). repeat constructor; lia.
  - inversion H as [|? ? Ha H']; subst. inversion H' as [|? ? Hb H'']; subst. inversion H'' as [|? ? Hc Ht]; subst. unfold is_byte in *.
    do 4 (constructor; [apply b64_char_plain; lia|]). now apply IH.
Qed.
