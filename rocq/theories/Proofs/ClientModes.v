(** The client's requests and its authentication mode. *)
From Coq Require Import String ZArith List Bool Lia ZifyBool ZifyNat.
From Verif Require Import Base Spec.Base64 Spec.Http Spec.Client Spec.Multipart Spec.ClientCalls Model.CLib Model.Codec Model.EstErr Model.HttpServer Model.Uri Model.AuthHdr Model.ClientHttp Model.Multipart Model.Client
  Proofs.Codec Proofs.EstErr Proofs.HttpParse Proofs.ClientHeaders Proofs.ClientHttp Proofs.ClientChallenge Proofs.MultipartHeaders Proofs.MultipartResponse.
Import ListNotations.
Open Scope Z_scope.

(** ** Lines *)
Lemma lines_ne : forall s, lines s <> [].
Proof. induction s as [|c s IH]; cbn; [discriminate|]. destruct (c =? 10); [discriminate|]. destruct (lines s); discriminate. Qed.
Lemma lines_cut : forall a b, ~ In 10 a -> lines (a ++ 10 :: b) = a :: lines b.
Proof.
  induction a as [|c a IH]; intros b N; cbn [app lines]; [reflexivity|]. replace (c =? 10) with false by (assert (c <> 10) by (intros ->; apply N; now left); lia).
  rewrite IH by (intro I; apply N; now right). reflexivity.
Qed.
Lemma lines_one : forall a, ~ In 10 a -> lines a = [a].
Proof.
  induction a as [|c a IH]; intro N; [reflexivity|]. cbn [lines]. replace (c =? 10) with false by (assert (c <> 10) by (intros ->; apply N; now left); lia).
  rewrite IH by (intro I; apply N; now right). reflexivity.
Qed.
Lemma lines_app : forall a b, exists ls l, lines a = ls ++ [l] /\ exists m ms, lines b = m :: ms /\ lines (a ++ b) = ls ++ (l ++ m) :: ms.
Proof.
  induction a as [|c a IH]; intro b.
  - exists [], []. split; [reflexivity|]. destruct (lines b) as [|m ms] eqn:E; [destruct (lines_ne b E)|]. exists m, ms. split; [reflexivity|exact E].
  - destruct (IH b) as (ls & l & E & m & ms & Em & Eb). cbn [app lines]. rewrite E, Eb. destruct (c =? 10).
    + exists ([] :: ls), l. split; [reflexivity|]. exists m, ms. auto.
    + destruct ls as [|l0 ls]; cbn [app].
      * exists [], (c :: l). split; [reflexivity|]. exists m, ms. auto.
      * exists ((c :: l0) :: ls), l. split; [reflexivity|]. exists m, ms. auto.
Qed.
(** Text that is a sequence of whole lines. *)
Definition whole (a : bytes) : Prop := a = [] \/ exists t, a = t ++ [10].
Lemma whole_lines : forall a b, whole a -> exists ls, lines a = ls ++ [[]] /\ lines (a ++ b) = ls ++ lines b.
Proof.
  intros a b [->|(t & ->)]; [exists []; auto|]. destruct (lines_app t [10]) as (ls & l & E & m & ms & Em & Eb). cbn in Em. injection Em as <- <-. rewrite app_nil_r in Eb.
  exists (ls ++ [l]). split; [rewrite Eb, <- app_assoc; reflexivity|]. rewrite <- app_assoc. cbn [app].
  destruct (lines_app t (10 :: b)) as (ls' & l' & E' & m' & ms' & Em' & Eb'). rewrite E in E'. apply app_inj_tail in E' as [<- <-].
  cbn in Em'. injection Em' as <- <-. rewrite Eb', app_nil_r, <- app_assoc. reflexivity.
Qed.
Lemma has_line_app : forall p a b, whole a -> p <> [] -> (has_line p (a ++ b) <-> has_line p a \/ has_line p b).
Proof.
  intros p a b W N. destruct (whole_lines a b W) as (ls & E1 & E2). unfold has_line. rewrite E1, E2. split.
  - intros (l & I & S). apply in_app_or in I as [I|I]; [left|right]; exists l; (split; [|exact S]); [apply in_or_app; now left|exact I].
  - intros [(l & I & S)|(l & I & S)].
    + apply in_app_or in I as [I|[<-|[]]]; [exists l; split; [apply in_or_app; now left|exact S]|]. destruct S as [t E]. destruct p; [contradiction|discriminate].
    + exists l. split; [apply in_or_app; now right|exact S].
Qed.
(** No line begins with "Authorization:". *)
Definition anon (a : bytes) : Prop := ~ credentials a.
Definition AUTHZ : bytes := str "Authorization:".
Lemma anon_app : forall a b, whole a -> anon a -> anon b -> anon (a ++ b).
Proof. intros a b W A B H. apply has_line_app in H as [H|H]; [now apply A|now apply B|exact W|discriminate]. Qed.
Lemma whole_app : forall a b, whole b -> b <> [] -> whole (a ++ b).
Proof. intros a b [->|(t & ->)] N; [contradiction|]. right. exists (a ++ t). now rewrite app_assoc. Qed.
(** One line. *)
Lemma anon_line : forall a, ~ In 10 a -> prefixb AUTHZ a = false -> anon (a ++ CRLF).
Proof.
  intros a N P (l & I & S). change CRLF with [13; 10] in I. change (a ++ [13; 10]) with (a ++ [13] ++ 10 :: []) in I. rewrite app_assoc, lines_cut in I by (rewrite in_app_iff; intros [C|[C|[]]]; [auto|discriminate]).
  destruct I as [<-|[<-|[]]]; destruct S as [t E]; [|discriminate]. fold AUTHZ in E.
  assert (Q : exists z, a = AUTHZ ++ z).
  { destruct (list_eq_dec Z.eq_dec t []) as [->|Nt]. { rewrite app_nil_r in E. exfalso. apply (f_equal (fun l => last l 0)) in E. rewrite last_last in E. discriminate. }
    destruct (exists_last Nt) as (u & x & ->). rewrite app_assoc in E. apply app_inj_tail in E as [E _]. eauto. }
  apply prefixb_spec in Q. congruence.
Qed.
Lemma anon_no_colon : forall a, ~ In 58 a -> anon a.
Proof.
  intros a N (l & I & S). destruct S as [t ->]. apply N. clear N. revert I. generalize ([] : list bytes). intros _.
  assert (G : forall a l, In l (lines a) -> forall x, In x l -> In x a).
  { clear. induction a as [|c a IH]; intros l I x Ix; cbn [lines] in I; [destruct I as [<-|[]]; exact Ix|]. destruct (c =? 10).
    - destruct I as [<-|I]; [destruct Ix|]. right. eapply IH; eauto.
    - destruct (lines a) as [|l0 r] eqn:E; [destruct (lines_ne a E)|]. destruct I as [<-|I].
      + destruct Ix as [<-|Ix]; [now left|]. right. eapply IH; [now left|exact Ix].
      + right. eapply IH; [right; exact I|exact Ix]. }
  intro I. eapply G; [exact I|]. cbn. auto 20.
Qed.
Lemma b64_char_colon : forall v, 0 <= v -> b64_char v <> 58.
Proof. intros v H. unfold b64_char. destruct (v <? 26) eqn:?; [lia|]. destruct (v <? 52) eqn:?; [lia|]. destruct (v <? 62) eqn:?; [lia|]. destruct (v =? 62); lia. Qed.
Lemma b64_no_colon : forall n d, (length d <= n)%nat -> all_bytes d -> ~ In 58 (b64_encode d).
Proof.
  assert (T : forall a b : Z, 0 <= a -> 0 <= b -> 0 <= a mod 4 * 16 + b / 16 /\ 0 <= a mod 16 * 4 + b / 64 /\ 0 <= a / 4 /\ 0 <= a mod 4 * 16 /\ 0 <= a mod 16 * 4 /\ 0 <= a mod 64).
  { intros a b A B. pose proof (Z.mod_pos_bound a 4). pose proof (Z.mod_pos_bound a 16). pose proof (Z.mod_pos_bound a 64). pose proof (Z.div_pos b 16). pose proof (Z.div_pos b 64). pose proof (Z.div_pos a 4). lia. }
  induction n as [|n IH]; intros d L F I; (destruct d as [|a [|b [|c t]]]; [destruct I| | |]); try (cbn in L; lia).
  all: inversion F as [|? ? Fa F1]; subst; unfold is_byte in Fa.
  - cbn [b64_encode] in I. destruct (T a a) as (_ & _ & T3 & T4 & _); [lia|lia|]. destruct I as [I|[I|[I|[I|[]]]]]; try discriminate; revert I; apply b64_char_colon; assumption.
  - inversion F1 as [|? ? Fb F2]; subst. unfold is_byte in Fb. destruct (T a b) as (T1 & _ & T3 & _); [lia|lia|]. destruct (T b b) as (_ & _ & _ & _ & T5 & _); [lia|lia|].
    cbn [b64_encode] in I. destruct I as [I|[I|[I|[I|[]]]]]; try discriminate; revert I; apply b64_char_colon; assumption.
  - inversion F1 as [|? ? Fb F2]; subst. inversion F2 as [|? ? Fc F3]; subst. unfold is_byte in *. destruct (T a b) as (T1 & _ & T3 & _); [lia|lia|]. destruct (T b c) as (_ & T2 & _); [lia|lia|]. destruct (T c c) as (_ & _ & _ & _ & _ & T6); [lia|lia|].
    cbn [b64_encode] in I. destruct I as [I|[I|[I|[I|I]]]]; try (revert I; apply b64_char_colon; assumption). eapply IH; [|exact F3|exact I]. cbn in L. lia.
Qed.
Lemma wrap_no_colon : forall n s, ~ In 58 s -> ~ In 58 (b64_lines n s).
Proof.
  induction n as [|n IH]; intros s N I; [destruct I|]. cbn [b64_lines] in I. destruct s as [|c s]; [destruct I|]. set (w := c :: s) in *. clearbody w.
  rewrite <- (firstn_skipn 64 w) in N. apply in_app_or in I as [I|I]; [apply N, in_or_app; now left|]. cbn [app] in I. destruct I as [I|I]; [discriminate|].
  eapply IH; [|exact I]. intro J. apply N, in_or_app. now right.
Qed.
Lemma body_anon : forall d, all_bytes d -> ~ In 58 (bio_b64_text d true).
Proof. intros d F. unfold bio_b64_text, b64_wrap. apply wrap_no_colon. eapply b64_no_colon; [|exact F]. apply le_n. Qed.

(** ** The fixed part of a request *)
Lemma dec_len : forall f z acc, len (dec_digits f z acc) <= Z.of_nat f + len acc.
Proof. induction f as [|f IH]; intros z acc; cbn [dec_digits]; [lia|]. destruct (z <? 10); [rewrite len_cons; lia|]. specialize (IH (z / 10) ((48 + z mod 10) :: acc)). rewrite len_cons in IH. lia. Qed.
Lemma print_len : forall z, 0 <= z <= 65535 -> len (print_int z) <= 16.
Proof.
  intros z H. unfold print_int. replace (z <? 0) with false by lia. pose proof (dec_len (S (Z.to_nat (Z.log2 z))) z []) as L. change (len (@nil Z)) with 0 in L.
  assert (Z.log2 z <= Z.log2 65535) by (apply Z.log2_le_mono; lia). change (Z.log2 65535) with 15 in *. pose proof (Z.log2_nonneg z). lia.
Qed.
Lemma dec_no_lf : forall f z acc, 0 <= z -> ~ In 10 acc -> ~ In 10 (dec_digits f z acc).
Proof.
  induction f as [|f IH]; intros z acc H N; cbn [dec_digits]; [exact N|].
  assert (N' : ~ In 10 ((48 + z mod 10) :: acc)) by (intros [C|C]; [pose proof (Z.mod_pos_bound z 10); lia|auto]). destruct (z <? 10); [exact N'|]. apply IH; [apply Z.div_pos; lia|exact N'].
Qed.
Lemma print_no_lf : forall z, ~ In 10 (print_int z).
Proof. intro z. unfold print_int. destruct (z <? 0) eqn:E; [intros [C|C]; [discriminate|]|intro C]; revert C; apply dec_no_lf; try lia; intros []. Qed.

Definition fit (c : client) : Prop :=
  len (c_server c) <= 255 /\ ~ In 10 (c_server c) /\ 0 <= c_port c <= 65535
  /\ match c_path c with Some p => len p <= 128 /\ ~ In 10 p | None => True end.

Ltac no_lf := rewrite ?in_app_iff; intuition (first [discriminate | cbn in *; intuition discriminate]).
Lemma start_facts : forall method name c, fit c -> ~ In 10 method -> ~ In 10 name -> len method <= 4 -> len name <= 20 -> prefixb AUTHZ method = false -> hd 0 method <> 65 ->
  let t := request_start method name c in whole t /\ anon t /\ len t <= 900 /\ t <> [].
Proof.
  intros method name c (Ls & Ns & Lp & Pa) Nm Nn Lm Ln Pm Hm t. unfold t, request_start. clear t.
  set (p := match c_path c with Some p => str "/" ++ p | None => [] end).
  assert (P : ~ In 10 p /\ len p <= 129). { unfold p. destruct (c_path c) as [q|]; [|split; [intros []|cbn; lia]]. destruct Pa as [L N]. split; [rewrite in_app_iff; intros [[C|[]]|C]; [discriminate|auto]|]. rewrite len_app. change (len (str "/")) with 1. lia. }
  clearbody p. destruct P as [Np Lp']. pose proof (print_no_lf (c_port c)) as Nc. pose proof (print_len _ Lp) as Lc.
  pose (L1 := method ++ str " /.well-known/est" ++ p ++ str "/" ++ name ++ str " HTTP/1.1").
  pose (L2 := str "User-Agent: " ++ AGENT). pose (L3 := str "Connection: close"). pose (L4 := str "Host: " ++ c_server c ++ str ":" ++ print_int (c_port c)). pose (L5 := str "Accept: */*").
  assert (E : method ++ str " /.well-known/est" ++ p ++ str "/" ++ name ++ str " HTTP/1.1" ++ CRLF ++ str "User-Agent: " ++ AGENT ++ CRLF ++ str "Connection: close" ++ CRLF
    ++ str "Host: " ++ c_server c ++ str ":" ++ print_int (c_port c) ++ CRLF ++ str "Accept: */*" ++ CRLF
    = (L1 ++ CRLF) ++ (L2 ++ CRLF) ++ (L3 ++ CRLF) ++ (L4 ++ CRLF) ++ (L5 ++ CRLF)).
  { unfold L1, L2, L3, L4, L5. rewrite <- !app_assoc. reflexivity. }
  rewrite E. assert (W : forall l, whole (l ++ CRLF)) by (intro l; right; exists (l ++ [13]); rewrite <- app_assoc; reflexivity).
  split; [|split; [|split]].
  - right. exists ((L1 ++ CRLF) ++ (L2 ++ CRLF) ++ (L3 ++ CRLF) ++ (L4 ++ CRLF) ++ (L5 ++ [13])). rewrite <- !app_assoc. reflexivity.
  - apply anon_app; [apply W| |apply anon_app; [apply W| |apply anon_app; [apply W| |apply anon_app; [apply W| |]]]].
    + apply anon_line; [unfold L1; rewrite !in_app_iff; cbn; intuition discriminate|]. unfold L1. destruct method as [|m0 method]; [reflexivity|]. cbn [hd] in Hm. change AUTHZ with (65 :: str "uthorization:"). cbn [Datatypes.app prefixb]. replace (65 =? m0) with false by lia. reflexivity.
    + apply anon_line; [cbn; intuition discriminate|reflexivity].
    + apply anon_line; [cbn; intuition discriminate|reflexivity].
    + apply anon_line; [unfold L4; rewrite !in_app_iff; cbn; intuition discriminate|reflexivity].
    + apply anon_line; [cbn; intuition discriminate|reflexivity].
  - unfold L1, L2, L3, L4, L5. rewrite !len_app. unfold AGENT. repeat match goal with |- context [len (str ?x)] => let v := eval vm_compute in (len (str x)) in change (len (str x)) with v end. change (len CRLF) with 2. lia.
  - unfold L1. destruct method; discriminate.
Qed.
Lemma post_facts : forall name n c, fit c -> ~ In 10 name -> len name <= 20 -> 0 <= n <= 65535 ->
  let t := post_start name n c in whole t /\ anon t /\ len t <= 1000 /\ t <> [].
Proof.
  intros name n c F Nn Ln Hn t. destruct (start_facts (str "POST") name c F) as (W & A & L & N); auto; try reflexivity; try (cbn; intuition discriminate); try (cbn; lia).
  unfold t, post_start. set (s := request_start (str "POST") name c) in *. clearbody s.
  pose (L1 := str "Content-Type: application/pkcs10"). pose (L2 := str "Content-Length: " ++ print_int n).
  assert (E : s ++ str "Content-Type: application/pkcs10" ++ CRLF ++ str "Content-Length: " ++ print_int n ++ CRLF = s ++ (L1 ++ CRLF) ++ (L2 ++ CRLF)) by (unfold L1, L2; rewrite <- !app_assoc; reflexivity).
  rewrite E. clear E. assert (Wc : forall l, whole (l ++ CRLF)) by (intro l; right; exists (l ++ [13]); rewrite <- app_assoc; reflexivity).
  split; [|split; [|split]].
  - right. exists (s ++ (L1 ++ CRLF) ++ (L2 ++ [13])). rewrite <- !app_assoc. reflexivity.
  - apply anon_app; [exact W|exact A|]. apply anon_app; [apply Wc| |]; apply anon_line; try reflexivity; [cbn; intuition discriminate|].
    unfold L2. rewrite in_app_iff. intros [C|C]; [cbn in C; intuition discriminate|]. now apply print_no_lf in C.
  - unfold L1, L2. rewrite !len_app. pose proof (print_len n Hn). repeat match goal with |- context [len (str ?x)] => let v := eval vm_compute in (len (str x)) in change (len (str x)) with v end. change (len CRLF) with 2. lia.
  - destruct s; [contradiction|discriminate].
Qed.

(** ** Requests in each mode *)
Definition mode_scheme (m : auth_mode) : option bytes :=
  match m with AUTH_BASIC => Some (str "Basic") | AUTH_DIGEST => Some (str "Digest") | AUTH_TOKEN => Some (str "Bearer") | _ => None end.
Definition OFFER (sc : bytes) : bytes := str "Authorization: " ++ sc ++ [32].
Definition tells (c : client) (q : bytes) : Prop :=
  match mode_scheme (k_mode (c_http c)) with None => ~ credentials q | Some sc => offers sc q end.

Lemma snprintf_whole : forall s n, len s < n -> snprintf_str s n = s.
Proof. intros s n H. unfold snprintf_str. pose proof (len_nonneg _ s). replace (n <=? 0) with false by lia. apply firstn_all2. unfold len in *. lia. Qed.
Lemma snprintf_start : forall p s n, len p < n -> exists r, snprintf_str (p ++ s) n = p ++ r.
Proof.
  intros p s n H. unfold snprintf_str. pose proof (len_nonneg _ p). replace (n <=? 0) with false by lia. rewrite firstn_app. rewrite firstn_all2 by (unfold len in *; lia). eauto.
Qed.
Lemma ok_inj : forall A (a b : A), Ok a = Ok b -> a = b.
Proof. congruence. Qed.
Lemma add_auth_text : forall X c t hdr uri h, add_auth X c t hdr uri = Ok h -> len hdr <= 1000 ->
  match mode_scheme (k_mode (c_http c)) with
  | None => h = hdr
  | Some sc => h = [] \/ exists r, h = hdr ++ OFFER sc ++ r
  end.
Proof.
  intros X c t hdr uri h H L. unfold add_auth in H. set (cr := if c_cb c then t_cred t else no_cred) in *. clearbody cr.
  assert (G : forall rnd, est_client_add_auth_hdr (x_md5 X) (k_mode (c_http c)) (c_user c) (c_pwd c) (k_realm (c_http c)) (k_nonce (c_http c)) cr rnd hdr uri = Ok h ->
    match mode_scheme (k_mode (c_http c)) with None => h = hdr | Some sc => h = [] \/ exists r, h = hdr ++ OFFER sc ++ r end).
  { clear H. intros rnd H. unfold est_client_add_auth_hdr in H. destruct (k_mode (c_http c)); cbn [mode_scheme].
    - congruence.
    - right. destruct (client_cred _ _ _) as [u p]. destruct (est_base64_encode _ _ _ _) as [[n blk]|]; [|discriminate]. cbn [bind] in H. destruct (cstr blk) as [b|]; [|discriminate]. cbn [bind] in H.
      injection H as <-. destruct (snprintf_start (OFFER (str "Basic")) (b ++ [13; 10]) (5125 - len hdr)) as [r E]; [change (len (OFFER (str "Basic"))) with 21; lia|]. exists r. rewrite <- E. reflexivity.
    - right. destruct (est_hex_to_str _ _ _); [|discriminate]. cbn [bind] in H. destruct (cstr _); [|discriminate]. cbn [bind] in H. destruct (client_cred _ _ _) as [u p].
      destruct (255 <=? len (c_user c)); [discriminate|]. destruct (est_client_generate_auth_digest _ _ _ _ _ _ _) as [dg|]; [|discriminate]. cbn [bind] in H. apply ok_inj in H. subst h.
      match goal with |- context [snprintf_str (?s ++ ?x) _] => destruct (snprintf_start (OFFER (str "Digest")) (str "username=" ++ x) (5125 - len hdr)) as [r E] end; [change (len (OFFER (str "Digest"))) with 22; lia|]. exists r. rewrite <- E. reflexivity.
    - right. destruct (est_base64_encode _ _ _ _) as [[n blk]|]; [|discriminate]. cbn [bind] in H. destruct (cstr blk) as [b|]; [|discriminate]. cbn [bind] in H.
      injection H as <-. destruct (snprintf_start (OFFER (str "Bearer")) (b ++ [13; 10]) (5125 - len hdr)) as [r E]; [change (len (OFFER (str "Bearer"))) with 22; lia|]. exists r. rewrite <- E. reflexivity.
    - congruence. }
  destruct (t_rnd t) as [rnd|]; [now apply (G rnd)|]. destruct (mode_eqb (k_mode (c_http c)) AUTH_DIGEST) eqn:E; [|now apply (G [])].
  injection H as <-. destruct (k_mode (c_http c)); try discriminate. cbn. now left.
Qed.
Lemma offers_start : forall a sc r, whole a -> In sc scheme_names -> offers sc (a ++ OFFER sc ++ r).
Proof.
  intros a sc r W I. apply has_line_app; [exact W|discriminate|]. right. destruct (lines_app (OFFER sc) r) as (ls & l & E & m & ms & Em & Eb).
  assert (N : ~ In 10 (OFFER sc)) by (repeat (destruct I as [<-|I]; [cbn; intuition discriminate|]); destruct I).
  rewrite (lines_one _ N) in E. destruct ls as [|x ls]; [|destruct ls; discriminate]. cbn in E. injection E as <-. exists (OFFER sc ++ m). rewrite Eb. split; [now left|]. exists m. reflexivity.
Qed.
Lemma mode_scheme_in : forall m sc, mode_scheme m = Some sc -> In sc scheme_names.
Proof. intros m sc H. destruct m; try discriminate; injection H as <-; cbn; auto. Qed.
Lemma tells_text : forall c a h body, whole a -> anon a -> ~ In 58 body ->
  match mode_scheme (k_mode (c_http c)) with None => h = a | Some sc => h = [] \/ exists r, h = a ++ OFFER sc ++ r end -> h <> [] -> tells c (h ++ body).
Proof.
  intros c a h body W A N H Nh. unfold tells. destruct (mode_scheme (k_mode (c_http c))) as [sc|] eqn:E.
  - destruct H as [H|(r & ->)]; [contradiction|]. rewrite <- !app_assoc. apply offers_start; [exact W|]. eapply mode_scheme_in; eauto.
  - subst h. apply anon_app; [exact W|exact A|now apply anon_no_colon].
Qed.

(** The request for an enrollment. *)
Definition op_uri_name (op : operation) : bytes :=
  match op with OP_SIMPLE_ENROLL => str "simpleenroll" | OP_SIMPLE_REENROLL => str "simplereenroll" | _ => str "serverkeygen" end.
Definition enrolls (op : operation) : Prop := op = OP_SIMPLE_ENROLL \/ op = OP_SIMPLE_REENROLL \/ op = OP_SERVER_KEYGEN.
Lemma enroll_request : forall X op c t body h q, enrolls op -> fit c -> ~ In 58 body ->
  build_header X op c t (len body) = Ok h -> (len h =? 0) = false -> complete h body = Ok q -> tells c q.
Proof.
  intros X op c t body h q Eo F Nb B Nh C. unfold complete in C. unfold REQ_DATA_MAX, REQ_TOTAL in C. destruct (4096 <? len body) eqn:Lb; [discriminate|].
  destruct (5125 <? _) eqn:Lt; [discriminate|]. injection C as <-. pose proof (len_nonneg _ body) as Lb0.
  destruct (post_facts (op_uri_name op) (len body) c F) as (W & A & L & N); [destruct op; cbn; intuition discriminate|destruct op; cbn; lia|lia|].
  assert (G : exists uri, exists h', add_auth X c t (post_start (op_uri_name op) (len body) c) uri = Ok h' /\ h = h').
  { assert (S : snprintf_str (post_start (op_uri_name op) (len body) c) 5125 = post_start (op_uri_name op) (len body) c) by (apply snprintf_whole; lia).
    destruct Eo as [->|[->| ->]]; cbn [build_header op_uri_name] in *.
    - unfold est_client_build_enroll_header, REQ_TOTAL in B. rewrite S in B. destruct (add_auth X c t _ _) as [h'|] eqn:E; [|discriminate]. cbn [bind] in B. eexists _, h'. split; [exact E|]. destruct (5125 <? len h'); [injection B as <-; discriminate|congruence].
    - unfold est_client_build_reenroll_header, REQ_TOTAL in B. rewrite S in B. destruct (add_auth X c t _ _) as [h'|] eqn:E; [|discriminate]. cbn [bind] in B. eexists _, h'. split; [exact E|]. destruct (HDR_MAX <? len h'); [injection B as <-; discriminate|congruence].
    - unfold est_client_build_server_keygen_header, REQ_TOTAL in B. rewrite S in B. eexists _, h. split; [exact B|reflexivity]. }
  destruct G as (uri & h' & Ea & ->). apply add_auth_text in Ea; [|exact L].
  rewrite <- !app_assoc. eapply tells_text; [exact W|exact A| |exact Ea|].
  - assert (Nc : ~ In 58 CRLF) by (cbn; intuition discriminate). intros I. apply in_app_or in I as [I|I]; [destruct I as [I|[I|I]]; [discriminate|discriminate|auto]|].
    destruct (_ =? 2); [cbn in I; intuition discriminate|auto].
  - intros ->. discriminate.
Qed.
Lemma csr_request : forall X c t h, fit c -> est_client_build_csr_header X c t = Ok h -> (len h =? 0) = false -> tells c (h ++ CRLF ++ CRLF).
Proof.
  intros X c t h F B Nh. destruct (start_facts (str "GET") (str "csrattrs") c F) as (W & A & L & N); try (cbn; intuition discriminate); try (cbn; lia); try reflexivity.
  unfold est_client_build_csr_header, REQ_TOTAL in B. rewrite snprintf_whole in B by lia. destruct (add_auth X c t _ _) as [h'|] eqn:E; [|discriminate]. cbn [bind] in B.
  assert (h = h') by (destruct (HDR_MAX <? len h'); [injection B as <-; discriminate|congruence]). subst h'. apply add_auth_text in E; [|lia].
  eapply tells_text; [exact W|exact A| |exact E|intros ->; discriminate]. cbn. intuition discriminate.
Qed.
Lemma cacerts_request : forall c, fit c -> ~ credentials (est_client_build_cacerts_header c ++ CRLF ++ CRLF).
Proof.
  intros c F. destruct (start_facts (str "GET") (str "cacerts") c F) as (W & A & L & N); try (cbn; intuition discriminate); try (cbn; lia); try reflexivity.
  unfold est_client_build_cacerts_header, REQ_TOTAL. rewrite snprintf_whole by lia. unfold HDR_MAX. replace (1024 <? _) with false by lia.
  apply anon_app; [exact W|exact A|]. apply anon_no_colon. cbn. intuition discriminate.
Qed.

(** ** Responses and the mode *)
Definition reply_mode (m : auth_mode) (evs : list net) (e : est_error) (m' : auth_mode) : Prop :=
  (local e /\ m' = m)
  \/ (e = EST_ERR_AUTH_FAIL /\ (exists d, arrives evs d /\ status401 d)
      /\ (m' = AUTH_FAIL \/ (mode_scheme m = None /\ exists sc, mode_scheme m' = Some sc /\ asks sc evs))).

Lemma status_401 : forall raw, first_status status_codes raw = 401 -> status401 raw.
Proof.
  intros raw H. unfold status_codes in H. cbn [first_status] in H. unfold status401, starts.
  repeat match type of H with (if prefixb ?p raw then _ else _) = _ => destruct (prefixb p raw) eqn:?; [try discriminate|] end; try discriminate.
  apply prefixb_spec. assumption.
Qed.
Lemma tokens_mode : forall f s c rv c', auth_tokens f s c = Ok (rv, c') -> k_mode c' = k_mode c.
Proof.
  induction f as [|f IH]; intros s c rv c' H; [discriminate|]. cbn [auth_tokens] in H. destruct (next_field s) as [[t s1]|]; [|discriminate]. cbn [bind] in H.
  destruct t as [[token z]|]; [|congruence].
  repeat match type of H with (if ?b then _ else _) = _ => destruct b end.
  all: try (destruct (next_field s1) as [[v s2]|]; [|discriminate]; cbn [bind] in H; destruct v as [x|]; [|try (injection H as <- <-; reflexivity); apply IH in H; exact H]).
  all: repeat match type of H with (if ?b then _ else _) = _ => destruct b end.
  all: try discriminate; try (injection H as <- <-; reflexivity); apply IH in H; rewrite H; reflexivity.
Qed.
Lemma auth_request_sound : forall m n0 os ts c c', Forall2 (shows m n0) os ts -> est_io_parse_http_auth_request m os c = Ok c' ->
  k_mode c' = AUTH_FAIL \/ exists sc h, mode_scheme (k_mode c') = Some sc /\ In h ts /\ prefixb (str "WWW-Authenticate") (fst h) = true /\ prefixb sc (snd h) = true.
Proof.
  intros m n0 os ts c c' F H. induction F as [|[o v] [tn tv] os ts (Hn & Hv & _) F IH]; cbn [est_io_parse_http_auth_request] in H.
  { injection H as <-. now left. }
  cbn [fst snd] in *. rewrite (has_text_cstr _ _ _ Hn) in H. cbn [bind] in H.
  change 16%nat with (length (str "WWW-Authenticate")) in H. rewrite strncmp_prefix in H by (apply no_nul_lit; reflexivity).
  destruct (prefixb (str "WWW-Authenticate") tn) eqn:Pn; [|destruct (IH H) as [G|(sc & h & E1 & E2 & E3)]; [now left|right; exists sc, h; repeat split; try apply E3; auto; now right]].
  rewrite (has_text_cstr _ _ _ Hv) in H. cbn [bind] in H.
  rewrite (strncmp_prefix (str "Basic") tv : _ -> strncmp_eq 5 _ _ = _) in H by (apply no_nul_lit; reflexivity).
  rewrite (strncmp_prefix (str "Digest") tv : _ -> strncmp_eq 6 _ _ = _) in H by (apply no_nul_lit; reflexivity).
  rewrite (strncmp_prefix (str "Bearer") tv : _ -> strncmp_eq 6 _ _ = _) in H by (apply no_nul_lit; reflexivity).
  assert (G : forall md sc, mode_scheme md = Some sc -> prefixb sc tv = true ->
    (' (rv, c') <- est_io_parse_auth_tokens (skipn (Z.to_nat v) m) (set_mode md c) ;; Ok (if err_eqb rv EST_ERR_NONE then c' else set_mode AUTH_FAIL c')) = Ok c' ->
    k_mode c' = AUTH_FAIL \/ exists sc h, mode_scheme (k_mode c') = Some sc /\ In h ((tn, tv) :: ts) /\ prefixb (str "WWW-Authenticate") (fst h) = true /\ prefixb sc (snd h) = true).
  { intros md sc Em Ps Q. unfold est_io_parse_auth_tokens in Q. destruct (next_field _) as [[t0 s1]|]; [|discriminate]. cbn [bind] in Q.
    destruct (auth_tokens _ _ _) as [[rv c1]|] eqn:T; [|discriminate]. cbn [bind] in Q. apply tokens_mode in T. cbn [k_mode set_mode] in T.
    destruct (err_eqb rv EST_ERR_NONE); injection Q as <-; [|now left]. right. exists sc, (tn, tv). rewrite T. repeat split; auto. now left. }
  destruct (prefixb (str "Basic") tv) eqn:P1; [eapply G; [|exact P1|exact H]; reflexivity|].
  destruct (prefixb (str "Digest") tv) eqn:P2; [eapply G; [|exact P2|exact H]; reflexivity|].
  destruct (prefixb (str "Bearer") tv) eqn:P3; [eapply G; [|exact P3|exact H]; reflexivity|]. injection H as <-. now left.
Qed.
Lemma retry_mode : forall m hs rv c rv' c', In rv [EST_ERR_INVALID_RETRY_VALUE; EST_ERR_CA_ENROLL_RETRY] -> retry_loop m hs rv c = Ok (rv', c') ->
  local rv' /\ k_mode c' = k_mode c.
Proof.
  induction hs as [|[n v] hs IH]; intros rv c rv' c' I H; cbn [retry_loop] in H.
  - injection H as <- <-. split; [|reflexivity]. destruct I as [<-|[<-|[]]]; repeat split; discriminate.
  - repeat match type of H with
    | (x <- ?e ;; _) = _ => destruct e; [cbn [bind] in H|discriminate]
    | (if ?b then _ else _) = _ => destruct b
    end; try discriminate; try (apply IH in H; [|cbn; tauto]; destruct H as [H1 H2]; split; [exact H1|rewrite H2; reflexivity]).
Qed.
(** Every path through the status. *)
Lemma status_mode : forall m1 n0 os ts raw evs c rv c', Forall2 (shows m1 n0) os ts ->
  (forall h p, In h ts -> len p <= 9 -> p <> [] -> prefixb p (snd h) = true -> exists v rest, header_line raw (fst h) v rest /\ starts p v) ->
  arrives evs raw -> status_result m1 os (first_status status_codes raw) c = Ok (rv, c') -> reply_mode (k_mode c) evs rv (k_mode c').
Proof.
  intros m1 n0 os ts raw evs c rv c' F Hl An H. unfold status_result in H.
  assert (G : forall e, local e -> Ok (e, c) = Ok (rv, c') -> reply_mode (k_mode c) evs rv (k_mode c')) by (intros e N Q; injection Q as <- <-; now left).
  repeat match type of H with
  | (if (first_status _ raw =? 401) then _ else _) = _ => fail 1
  | (if (first_status _ raw =? 202) then _ else _) = _ => fail 1
  | (if ?b then Ok (?e, c) else _) = _ => destruct b; [apply (G e); [repeat split; discriminate|exact H]|]
  end.
  destruct (first_status status_codes raw =? 202).
  { left. unfold est_io_parse_http_retry_after_resp in H. apply retry_mode in H; [|now left]. exact H. }
  destruct (first_status status_codes raw =? 400); [apply (G EST_ERR_HTTP_BAD_REQ); [repeat split; discriminate|exact H]|].
  destruct (first_status status_codes raw =? 401) eqn:E4.
  - assert (S4 : exists d, arrives evs d /\ status401 d) by (exists raw; split; [exact An|apply status_401; lia]).
    destruct (mode_scheme (k_mode c)) as [sc|] eqn:Ms.
    + right. assert (Q : Ok (EST_ERR_AUTH_FAIL, set_mode AUTH_FAIL c) = Ok (rv, c')) by (destruct (k_mode c); try discriminate; exact H). injection Q as <- <-. auto.
    + assert (Q : (c' <- est_io_parse_http_auth_request m1 os c ;; Ok (EST_ERR_AUTH_FAIL, c')) = Ok (rv, c')) by (destruct (k_mode c); try discriminate; exact H).
      destruct (est_io_parse_http_auth_request m1 os c) as [c1|] eqn:P; [|discriminate]. cbn [bind] in Q. injection Q as <- <-. right. split; [reflexivity|]. split; [exact S4|].
      apply (auth_request_sound _ _ _ _ _ _ F) in P as [P|(sc & h & E1 & E2 & E3 & E5)]; [now left|]. right. split; [exact Ms|]. exists sc. split; [exact E1|].
      apply mode_scheme_in in E1 as Isc. assert (len sc <= 9 /\ sc <> []) as [L9 Nsc] by (repeat (destruct Isc as [<-|Isc]; [split; [cbn; lia|discriminate]|]); destruct Isc).
      destruct (Hl h sc E2 L9 Nsc E5) as (v & rest & Hh & Sv). apply prefixb_spec in E3. exists raw, (fst h), v, rest. repeat split; auto. apply status_401. lia.
  - repeat match type of H with (if ?b then Ok (?e, c) else _) = _ => destruct b; [apply (G e); [repeat split; discriminate|exact H]|] end. apply (G EST_ERR_HTTP_UNSUPPORTED); [repeat split; discriminate|exact H].
Qed.

Lemma response_mode : forall evs op c e d c', est_io_get_response evs op c = Ok (e, d, c') -> reply_mode (k_mode c) evs e (k_mode c').
Proof.
  intros evs op c e d c' H. unfold est_io_get_response in H. destruct (est_io_read_raw evs []) as [rv0 raw] eqn:R. destruct (read_raw_result evs [] rv0 raw ltac:(reflexivity) R) as (Er & Lr & _).
  destruct (negb (err_eqb rv0 EST_ERR_NONE)) eqn:N0; [left; injection H as <- <- <-; split; [|reflexivity]|].
  { split; [|split]; intros ->; repeat destruct Er as [Er|Er]; discriminate || destruct Er. }
  apply negb_false_iff, err_eqb_eq in N0. subst rv0. pose proof (read_arrived _ _ R) as Ar.
  destruct (len raw <=? 0); [left; injection H as <- <- <-; split; [repeat split; discriminate|reflexivity]|].
  remember (raw ++ repeat 0 (Z.to_nat (EST_CA_MAX - len raw))) as m eqn:Em.
  destruct (parse_response_headers m) as [[[m1 cur] hs]|] eqn:P; [|discriminate]. cbn [bind] in H.
  destruct (parse_any _ _ P) as (t & Et). pose proof (block_post m t) as B. cbv zeta in B. destruct (B Et) as (m1' & hs' & P' & B2 & B3 & B4 & _). clear B.
  rewrite P in P'. assert (m1' = m1) by congruence. assert (hs' = hs) by congruence. subst m1' hs'.
  assert (Tm : text m = text raw) by (subst m; apply text_zeros). rewrite Tm in *. fold (the_text raw) in B4.
  unfold est_io_parse_response_status_code in H. replace (first_status status_codes m) with (first_status status_codes raw) in H by (rewrite Em; symmetry; apply first_status_zeros).
  destruct (status_result m1 hs _ _) as [[rv1 c1]|] eqn:St; [|discriminate]. cbn [bind] in H.
  assert (Q : reply_mode (k_mode c) evs rv1 (k_mode c1)).
  { change (k_mode c) with (k_mode (set_status (first_status status_codes raw) c)). eapply (fun m1 n0 os ts => status_mode m1 n0 os ts raw); [exact B4| |exact Ar|exact St].
    intros h p I L9 Np Pp. destruct (raw_lines raw) as (head & Er' & F). rewrite Forall_forall in F. destruct (F h I) as [C|C].
    - exfalso. destruct h as [hn hv]. cbn [fst snd] in *. subst hv. destruct p; [contradiction|discriminate].
    - exists (snd h), (the_body raw). split; [exact C|]. now apply prefixb_spec. }
  destruct (err_eqb rv1 EST_ERR_NONE) eqn:E1; [|injection H as <- <- <-; exact Q]. apply err_eqb_eq in E1. subst rv1.
  destruct Q as [[_ Q]|[Q _]]; [|discriminate]. left. rewrite <- Q.
  destruct (status_only op); [injection H as <- <- <-; split; [repeat split; discriminate|reflexivity]|].
  destruct (response_body m1 hs (len raw) cur op) as [[rv' d']|] eqn:Rb; [|discriminate]. cbn [bind] in H. injection H as <- <- <-. split; [|reflexivity].
  unfold response_body in Rb. destruct (est_io_check_http_hdrs m1 hs op) as [[r cl]|] eqn:Ck; [|discriminate]. cbn [bind] in Rb.
  destruct (err_eqb r EST_ERR_NONE).
  - cbv zeta in Rb. repeat match type of Rb with (if ?b then _ else _) = _ => destruct b end; try discriminate; injection Rb as <- <-; repeat split; discriminate.
  - injection Rb as <- <-. unfold est_io_check_http_hdrs in Ck. destruct (check_loop _ _ _ _ _) as [[[[|] [y|]]|]|]; try discriminate; cbn [bind] in Ck; injection Ck as <- _; repeat split; discriminate.
Qed.
Lemma keygen_mode : forall junk evs c e d c', est_io_get_keygen_response junk evs c = Ok (e, d, c') ->
  reply_mode (k_mode c) evs e (k_mode c') /\ (e <> EST_ERR_NONE -> d = None).
Proof.
  intros junk evs c e d c' H. unfold est_io_get_keygen_response in H. destruct (est_io_read_raw evs []) as [rv0 raw] eqn:R. destruct (read_raw_result evs [] rv0 raw ltac:(reflexivity) R) as (Er & Lr & _).
  destruct (negb (err_eqb rv0 EST_ERR_NONE)) eqn:N0; [injection H as <- <- <-; split; [left|auto]; split; [|reflexivity]|].
  { split; [|split]; intros ->; repeat destruct Er as [Er|Er]; discriminate || destruct Er. }
  apply negb_false_iff, err_eqb_eq in N0. subst rv0. pose proof (read_arrived _ _ R) as Ar.
  destruct (len raw <=? 0); [injection H as <- <- <-; split; [left|auto]; split; [repeat split; discriminate|reflexivity]|].
  remember (raw ++ repeat 0 (Z.to_nat (EST_CA_MAX - len raw))) as m eqn:Em.
  unfold est_io_parse_response_status_code in H. replace (first_status status_codes m) with (first_status status_codes raw) in H by (rewrite Em; symmetry; apply first_status_zeros).
  destruct (parse_and_split_keygen_rsp m) as [r|] eqn:P; [|discriminate]. cbn [bind] in H.
  assert (Et : exists post, m = text m ++ 0 :: post).
  { destruct (text_rest m) as (t & Et & Ht). destruct t as [|z t]; [|cbn in Ht; subst z; eauto]. exfalso. unfold parse_and_split_keygen_rsp in P. rewrite cstr_at_len in P.
    replace ((0 <=? 0) && (0 <=? len m)) with true in P by (pose proof (len_nonneg _ m); lia). cbn [Z.to_nat skipn] in P. rewrite cstr_none in P; [discriminate|].
    rewrite app_nil_r in Et. rewrite Et. apply text_no_nul. }
  destruct Et as [post Et]. pose proof (keygen_split (text m) post (text_no_nul m)) as K. cbv zeta in K. rewrite <- Et, P in K.
  assert (Tm : text m = text raw) by (subst m; apply text_zeros). rewrite Tm in *.
  destruct (kb_text (text raw)) as [B|]; [|injection K as ->; injection H as <- <- <-; split; [left|auto]; split; [repeat split; discriminate|reflexivity]].
  destruct K as (s' & pre' & hs & ts & b & E & _ & _ & _ & _ & F & _ & _ & Al). injection E as ->.
  destruct (status_result _ hs _ _) as [[rv1 c1]|] eqn:St; [|discriminate]. cbn [bind] in H.
  assert (Q : reply_mode (k_mode c) evs rv1 (k_mode c1)).
  { change (k_mode c) with (k_mode (set_status (first_status status_codes raw) c)). eapply (fun m1 n0 os ts => status_mode m1 n0 os ts raw); [exact F| |exact Ar|exact St].
    intros h p I L9 Np Pp. destruct (raw_lines raw) as (head & Er' & Fl). rewrite Forall_forall in Fl.
    assert (G : exists h', In h' (the_text raw) /\ alike h h').
    { unfold the_text. clear - I Al. induction Al as [|x y l l' Hxy Al IH]; [destruct I|]. destruct I as [<-|I]; [exists y; split; [now left|exact Hxy]|]. destruct (IH I) as (h' & I' & A'). exists h'. split; [now right|exact A']. }
    destruct G as (h' & I' & (A1 & A2 & _)). rewrite A1. specialize (A2 p L9 Pp). destruct (Fl h' I') as [C|C].
    - exfalso. destruct h' as [hn hv]. cbn [fst snd] in *. subst hv. destruct p; [contradiction|discriminate].
    - exists (snd h'), (the_body raw). split; [exact C|]. now apply prefixb_spec. }
  destruct (err_eqb rv1 EST_ERR_NONE) eqn:E1; [|injection H as <- <- <-; split; [exact Q|auto]]. apply err_eqb_eq in E1. subst rv1.
  destruct Q as [[_ Q]|[Q _]]; [|discriminate]. rewrite <- Q.
  destruct (keygen_payload junk _ _ b) as [[rv' d']|] eqn:Kp; [|discriminate]. cbn [bind] in H. injection H as <- <- <-.
  unfold keygen_payload in Kp. destruct b as [b|]; [|injection Kp as <- <-; split; [left; split; [repeat split; discriminate|reflexivity]|contradiction]].
  destruct (cstr_at _ b) as [bd|]; [|discriminate]. cbn [bind] in Kp. destruct (cstr_at _ _) as [w|]; [|discriminate]. cbn [bind] in Kp. destruct (find_sub bd w); [|discriminate].
  destruct (parse_remaining_multipart_payload _ _ _ _) as [[[rv key] cert]|] eqn:Pm; [|discriminate]. cbn [bind] in Kp.
  assert (Hrv : local rv).
  { unfold parse_remaining_multipart_payload in Pm. destruct (_ <=? _); [discriminate|]. destruct (cstr_at _ _); [|discriminate]. cbn [bind] in Pm. destruct (execute_loop _ _ _ _ _ _ _ _) as [[pz pp]|]; [|discriminate].
    cbn [bind] in Pm. injection Pm as <- _ _. destruct (both_populated pp); [repeat split; discriminate|]. destruct (_ <? _); repeat split; discriminate. }
  destruct (negb (err_eqb rv EST_ERR_NONE)); [injection Kp as <- <-; split; [left; auto|auto]|]. destruct (_ || _); injection Kp as <- <-; (split; [left; split; [repeat split; discriminate|reflexivity]|auto]). contradiction.
Qed.

(** ** A 401 response is an authentication failure *)
Lemma first_401 : forall raw, status401 raw -> first_status status_codes raw = 401.
Proof.
  intros raw (t & ->). unfold status_codes. cbn [first_status].
  assert (G : forall p q, length p = length q -> prefixb p (q ++ t) = prefixb p q).
  { clear. induction p as [|x p IH]; intros q L; [reflexivity|]. destruct q as [|y q]; [discriminate|]. cbn [Datatypes.app prefixb]. rewrite IH by (cbn in L; lia). reflexivity. }
  rewrite !G by reflexivity. reflexivity.
Qed.
Lemma result_401 : forall m hs c rv c', status_result m hs 401 c = Ok (rv, c') -> rv = EST_ERR_AUTH_FAIL.
Proof.
  intros m hs c rv c' H. unfold status_result in H. cbn in H. destruct (k_mode c); try congruence; destruct (est_io_parse_http_auth_request m hs c); cbn [bind] in H; congruence.
Qed.
Lemma result_200 : forall m hs st c c', status_result m hs st c = Ok (EST_ERR_NONE, c') -> st = 200 /\ c' = c.
Proof.
  intros m hs st c c' H. unfold status_result in H. destruct (st =? 200) eqn:E; [split; [lia|congruence]|]. exfalso.
  repeat match type of H with
  | (if ?b then Ok (?e, c) else _) = _ => destruct b; [discriminate|]
  | (if ?b then est_io_parse_http_retry_after_resp _ _ _ else _) = _ => destruct b; [unfold est_io_parse_http_retry_after_resp in H|]
  end.
  - assert (G : forall hs rv c c', In rv [EST_ERR_INVALID_RETRY_VALUE; EST_ERR_CA_ENROLL_RETRY] -> retry_loop m hs rv c <> Ok (EST_ERR_NONE, c')).
    { clear. induction hs as [|[n v] hs IH]; intros rv c c' I H; cbn [retry_loop] in H; [injection H as -> _; destruct I as [I|[I|[]]]; discriminate|].
      repeat match type of H with
      | (x <- ?e ;; _) = _ => destruct e; [cbn [bind] in H|discriminate]
      | (if ?b then _ else _) = _ => destruct b
      end; try discriminate; apply IH in H; auto; cbn; auto. }
    apply G in H; auto. now left.
  - destruct (st =? 401); [|repeat match type of H with (if ?b then Ok (?e, c) else _) = _ => destruct b; [discriminate|] end; discriminate].
    destruct (k_mode c); try discriminate; destruct (est_io_parse_http_auth_request m hs c); discriminate.
Qed.

Lemma response_401 : forall evs op c e d c' raw, est_io_get_response evs op c = Ok (e, d, c') -> arrives evs raw -> len raw < EST_CA_MAX -> status401 raw -> e = EST_ERR_AUTH_FAIL.
Proof.
  intros evs op c e d c' raw H A L S. unfold est_io_get_response in H. rewrite (read_arrives _ _ A L) in H. change (negb (err_eqb EST_ERR_NONE EST_ERR_NONE)) with false in H. cbv iota in H.
  assert (L0 : (len raw <=? 0) = false) by (destruct S as (t & ->); rewrite len_app; pose proof (len_nonneg _ t); change (len (str "HTTP/1.1 401")) with 12; lia). rewrite L0 in H.
  unfold est_io_parse_response_status_code in H. rewrite first_status_zeros, (first_401 _ S) in H.
  destruct (parse_response_headers _) as [[[m1 cur] hs]|]; [|discriminate]. cbn [bind] in H.
  destruct (status_result m1 hs 401 _) as [[rv c1]|] eqn:E; [|discriminate]. cbn [bind] in H. apply result_401 in E. subst rv.
  change (err_eqb EST_ERR_AUTH_FAIL EST_ERR_NONE) with false in H. cbv iota in H. congruence.
Qed.
Lemma keygen_401 : forall junk evs c e d c' raw, est_io_get_keygen_response junk evs c = Ok (e, d, c') -> arrives evs raw -> len raw < EST_CA_MAX -> status401 raw ->
  e = EST_ERR_AUTH_FAIL \/ e = EST_ERR_MULTIPART_PARSE.
Proof.
  intros junk evs c e d c' raw H A L S. unfold est_io_get_keygen_response in H. rewrite (read_arrives _ _ A L) in H. change (negb (err_eqb EST_ERR_NONE EST_ERR_NONE)) with false in H. cbv iota in H.
  assert (L0 : (len raw <=? 0) = false) by (destruct S as (t & ->); rewrite len_app; pose proof (len_nonneg _ t); change (len (str "HTTP/1.1 401")) with 12; lia). rewrite L0 in H.
  unfold est_io_parse_response_status_code in H. rewrite first_status_zeros, (first_401 _ S) in H.
  destruct (parse_and_split_keygen_rsp _) as [[[[[m1 cur] hs] b]|]|]; [| |discriminate]; cbn [bind] in H; [|right; congruence].
  destruct (status_result m1 hs 401 _) as [[rv c1]|] eqn:E; [|discriminate]. cbn [bind] in H. apply result_401 in E. subst rv.
  change (err_eqb EST_ERR_AUTH_FAIL EST_ERR_NONE) with false in H. cbv iota in H. left. congruence.
Qed.
Lemma keygen_200 : forall junk evs c d c', est_io_get_keygen_response junk evs c = Ok (EST_ERR_NONE, d, c') -> exists raw, arrives evs raw /\ starts (str "HTTP/1.1 200") raw.
Proof.
  intros junk evs c d c' H. unfold est_io_get_keygen_response in H. destruct (est_io_read_raw evs []) as [rv0 raw] eqn:R.
  destruct (negb (err_eqb rv0 EST_ERR_NONE)) eqn:N0; [injection H as -> _ _; discriminate|].
  apply negb_false_iff, err_eqb_eq in N0. subst rv0. exists raw. split; [exact (read_arrived _ _ R)|].
  destruct (len raw <=? 0); [discriminate|]. unfold est_io_parse_response_status_code in H. rewrite first_status_zeros in H.
  destruct (parse_and_split_keygen_rsp _) as [[[[[m1 cur] hs] b]|]|]; [|discriminate|discriminate]; cbn [bind] in H.
  destruct (status_result m1 hs _ _) as [[rv c1]|] eqn:E; [|discriminate]. cbn [bind] in H.
  destruct (err_eqb rv EST_ERR_NONE) eqn:En; [|injection H as -> _ _; discriminate]. apply err_eqb_eq in En. subst rv. apply result_200 in E as [E _]. now apply status_200.
Qed.
