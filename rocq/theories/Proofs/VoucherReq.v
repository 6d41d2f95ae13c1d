(** Voucher requests. *)
From Coq Require Import String ZArith List Bool Lia ZifyBool ZifyNat.
From Verif Require Proofs.AuthDigest.
From Verif Require Import Base Spec.Base64 Spec.Http Spec.Client Spec.Multipart Spec.ClientCalls Model.CLib Model.Codec Model.EstErr Model.HttpServer Model.Uri Model.AuthHdr Model.ClientHttp Model.Multipart Model.Host Model.Client Model.Status Model.VoucherReq
  Proofs.EstErr Proofs.HttpParse Proofs.ClientHttp Proofs.ClientRender Proofs.Codec Proofs.Uri Proofs.ServerReply Proofs.ClientModes Proofs.ClientCalls Proofs.Status Spec.Status Spec.VoucherReq.
Import ListNotations.
Open Scope Z_scope.

(** ** The text *)
Definition request_text (nonce time cert : bytes) : bytes :=
  str "{" ++ CRLF ++ [34] ++ str "ietf-voucher-request:voucher" ++ [34] ++ str ": {" ++ CRLF
  ++ [34] ++ str "nonce" ++ [34] ++ str ": " ++ [34] ++ nonce ++ [34] ++ str "," ++ CRLF
  ++ [34] ++ str "created-on" ++ [34] ++ str ": " ++ [34] ++ time ++ [34] ++ str "," ++ CRLF
  ++ [34] ++ str "assertion" ++ [34] ++ str ": " ++ [34] ++ str "proximity" ++ [34] ++ str "," ++ CRLF
  ++ [34] ++ str "proximity-registrar-cert" ++ [34] ++ str ": " ++ [34] ++ cert ++ [34] ++ CRLF
  ++ str "}}".
Lemma request_text_len : forall nonce time cert, len (request_text nonce time cert) = 132 + len nonce + len time + len cert.
Proof. intros. unfold request_text. rewrite !len_app. lits. change (len [34]) with 1. lia. Qed.
Lemma build_text : forall nonce time cert, len nonce + len time + len cert <= 16000 ->
  est_brski_build_voucher_req nonce time (str "proximity") cert = request_text nonce time cert.
Proof.
  intros nonce time cert L. unfold est_brski_build_voucher_req. fold (request_text nonce time cert).
  apply snprintf_whole. rewrite request_text_len. unfold EST_BRSKI_MAX_VOUCHER_REQ_LEN. lia.
Qed.

Lemma no_lf_app : forall a b, no_lf (a ++ b) = no_lf a ++ no_lf b.
Proof. intros. apply filter_app. Qed.
Lemma no_lf_plain : forall s, plain s -> no_lf s = s.
Proof.
  induction 1 as [|c s (A & _) _ IH]; [reflexivity|]. unfold no_lf in *. cbn [filter]. replace (c =? 10) with false by lia. cbn [negb]. now rewrite IH.
Qed.
Lemma no_lf_lines : forall f s, plain s -> (length s <= f)%nat -> no_lf (b64_lines f s) = s.
Proof.
  induction f as [|f IH]; intros s P L; cbn [b64_lines].
  - destruct s; [reflexivity|cbn in L; lia].
  - destruct s as [|c s']; [reflexivity|]. set (s := c :: s') in *.
    assert (Pf : plain (firstn 64 s)) by (apply Forall_forall; intros x I; unfold plain in P; rewrite Forall_forall in P; apply P; rewrite <- (firstn_skipn 64 s); apply in_or_app; auto).
    assert (Ps : plain (skipn 64 s)) by (apply Forall_forall; intros x I; unfold plain in P; rewrite Forall_forall in P; apply P; rewrite <- (firstn_skipn 64 s); apply in_or_app; auto).
    rewrite !no_lf_app, (no_lf_plain _ Pf), IH by (try exact Ps; rewrite skipn_length; subst s; cbn in *; lia).
    change (no_lf [10]) with (@nil Z). cbn [Datatypes.app]. apply firstn_skipn.
Qed.
Lemma no_lf_wrap : forall s, plain s -> no_lf (b64_wrap s) = s.
Proof. intros s P. apply no_lf_lines; auto. Qed.

Lemma member_sp : forall n s w1 w4, plain n -> plain s -> spaces w1 -> spaces w4 ->
  member_text (n, Text s) (w1 ++ [34] ++ n ++ [34] ++ [58] ++ [32] ++ ([34] ++ s ++ [34]) ++ w4).
Proof.
  intros n s w1 w4 N S S1 S4. exists w1, n, [], [32], ([34] ++ s ++ [34]), w4. split; [reflexivity|]. repeat split; auto; try spc; [now apply plain_text|now apply string_value].
Qed.
Lemma request_wraps : forall nonce time cert, plain nonce -> plain time -> plain (no_lf cert) ->
  wraps (str "ietf-voucher-request:voucher") (request_members nonce time (no_lf cert)) (no_lf (request_text nonce time cert)).
Proof.
  intros nonce time cert N T C. unfold request_text. rewrite !no_lf_app, (no_lf_plain _ N), (no_lf_plain _ T).
  repeat match goal with |- context [no_lf (str ?s)] => let v := eval vm_compute in (no_lf (str s)) in change (no_lf (str s)) with v end.
  change (no_lf [34]) with [34]. change (no_lf CRLF) with [13].
  exists [13], (str "ietf-voucher-request:voucher"), [], [32],
    ([123] ++ (([13] ++ [34] ++ str "nonce" ++ [34] ++ [58] ++ [32] ++ ([34] ++ nonce ++ [34]) ++ []) ++ [44]
      ++ ([13] ++ [34] ++ str "created-on" ++ [34] ++ [58] ++ [32] ++ ([34] ++ time ++ [34]) ++ []) ++ [44]
      ++ ([13] ++ [34] ++ str "assertion" ++ [34] ++ [58] ++ [32] ++ ([34] ++ str "proximity" ++ [34]) ++ []) ++ [44]
      ++ ([13] ++ [34] ++ str "proximity-registrar-cert" ++ [34] ++ [58] ++ [32] ++ ([34] ++ no_lf cert ++ [34]) ++ [13])) ++ [125]), [].
  split; [rewrite ?app_nil_r, <- ?app_assoc; reflexivity|]. split; [spc|]. split; [spc|]. split; [spc|]. split; [spc|].
  split; [apply plain_text, lit_plain; reflexivity|]. eexists. split; [reflexivity|]. unfold request_members.
  constructor; [|constructor; [|constructor; [|constructor]]]; apply member_sp; try spc; try assumption; apply lit_plain; reflexivity.
Qed.

(** ** Texts with a line feed in a string are not JSON *)
Inductive place := Outside | Inside | Escaped.
Fixpoint scan (p : place) (t : bytes) : option place :=
  match t with
  | [] => Some p
  | c :: t =>
    match p with
    | Outside => scan (if c =? 34 then Inside else Outside) t
    | Inside => if c =? 34 then scan Outside t else if c =? 92 then scan Escaped t else if c <? 32 then None else scan Inside t
    | Escaped => scan Inside t
    end
  end.
Lemma scan_app : forall a b p, scan p (a ++ b) = match scan p a with Some p' => scan p' b | None => None end.
Proof.
  induction a as [|c a IH]; intros b p; [reflexivity|]. cbn [Datatypes.app scan]. destruct p; try apply IH.
  repeat match goal with |- context [if ?b then _ else _] => destruct b end; try apply IH. reflexivity.
Qed.
Lemma scan_string : forall s t, string_text s t -> scan Inside t = Some Inside.
Proof.
  induction 1 as [|c s t A B C _ IH|c e s t I _ IH]; [reflexivity| |exact IH].
  cbn [scan]. replace (c =? 34) with false by lia. replace (c =? 92) with false by lia. replace (c <? 32) with false by lia. exact IH.
Qed.
Lemma scan_spaces : forall w, spaces w -> scan Outside w = Some Outside.
Proof. induction 1 as [|c w I _ IH]; [reflexivity|]. cbn [scan]. replace (c =? 34) with false by (cbn in I; lia). exact IH. Qed.
Lemma scan_value : forall v t, value_text v t -> scan Outside t = Some Outside.
Proof.
  intros v t H. inversion H as [| |s u Hs]; [reflexivity|reflexivity|]. change (scan Inside (u ++ [34]) = Some Outside). rewrite scan_app, (scan_string _ _ Hs). reflexivity.
Qed.
Lemma scan_go : forall p a p' b, scan p a = Some p' -> scan p (a ++ b) = scan p' b.
Proof. intros p a p' b E. now rewrite scan_app, E. Qed.
Ltac go := first [rewrite (scan_go Outside [34] Inside) by reflexivity|rewrite (scan_go Inside [34] Outside) by reflexivity|rewrite (scan_go Outside [58] Outside) by reflexivity
  |rewrite (scan_go Outside [123] Outside) by reflexivity|rewrite (scan_go Outside [125] Outside) by reflexivity|rewrite (scan_go Outside [44] Outside) by reflexivity
  |erewrite scan_go by (first [apply scan_spaces; eassumption|eapply scan_string; eassumption|eapply scan_value; eassumption])].
Lemma scan_member : forall m t, member_text m t -> scan Outside t = Some Outside.
Proof. intros m t (w1 & n & w2 & w3 & v & w4 & -> & S1 & S2 & S3 & S4 & Hn & Hv). repeat go. now apply scan_spaces. Qed.
Lemma scan_members : forall ms t, members_text ms t -> scan Outside t = Some Outside.
Proof.
  induction 1 as [m t H|m t ms u H _ IH]; [exact (scan_member _ _ H)|]. rewrite (scan_go _ _ _ _ (scan_member _ _ H)). go. exact IH.
Qed.
Lemma scan_wraps : forall name ms t, wraps name ms t -> scan Outside t = Some Outside.
Proof.
  intros name ms t (w1 & n & w2 & w3 & u & w4 & -> & S1 & S2 & S3 & S4 & Hn & x & -> & Hx). rewrite <- !app_assoc. repeat go.
  rewrite (scan_go _ _ _ _ (scan_members _ _ Hx)). repeat go. reflexivity.
Qed.
Lemma scan_lf : forall a b, plain a -> scan Inside (a ++ 10 :: b) = None.
Proof. intros a b P. rewrite scan_app, (scan_string _ _ (plain_text _ P)). reflexivity. Qed.
Lemma request_not_json : forall nonce time cert name ms, plain nonce -> plain time -> (exists a b, cert = a ++ 10 :: b /\ plain a) ->
  ~ wraps name ms (request_text nonce time cert).
Proof.
  intros nonce time cert name ms N T (a & b & -> & A) W. apply scan_wraps in W. revert W. unfold request_text.
  set (p1 := str "{" ++ CRLF ++ [34] ++ str "ietf-voucher-request:voucher" ++ [34] ++ str ": {" ++ CRLF ++ [34] ++ str "nonce" ++ [34] ++ str ": " ++ [34]).
  set (p2 := [34] ++ str "," ++ CRLF ++ [34] ++ str "created-on" ++ [34] ++ str ": " ++ [34]).
  set (p3 := [34] ++ str "," ++ CRLF ++ [34] ++ str "assertion" ++ [34] ++ str ": " ++ [34] ++ str "proximity" ++ [34] ++ str "," ++ CRLF ++ [34] ++ str "proximity-registrar-cert" ++ [34] ++ str ": " ++ [34]).
  match goal with |- scan Outside ?t = _ -> _ => replace t with (p1 ++ nonce ++ p2 ++ time ++ p3 ++ a ++ 10 :: (b ++ [34] ++ CRLF ++ str "}}"))
    by (unfold p1, p2, p3; rewrite <- ?app_assoc; reflexivity) end.
  rewrite scan_app. change (scan Outside p1) with (Some Inside). cbv iota. rewrite scan_app, (scan_string _ _ (plain_text _ N)). cbv iota.
  rewrite scan_app. change (scan Inside p2) with (Some Inside). cbv iota. rewrite scan_app, (scan_string _ _ (plain_text _ T)). cbv iota.
  rewrite scan_app. change (scan Inside p3) with (Some Inside). cbv iota. rewrite scan_lf by exact A. discriminate.
Qed.

(** ** Runs *)
Lemma wrap_first : forall s, plain s -> s <> [] -> exists a b, b64_wrap s = a ++ 10 :: b /\ plain a.
Proof.
  intros s P N. unfold b64_wrap. destruct s as [|c s']; [congruence|]. cbn [length b64_lines]. set (s := c :: s') in *.
  exists (firstn 64 s), (b64_lines (length s') (skipn 64 s)). split; [reflexivity|].
  apply Forall_forall. intros x I. unfold plain in P. rewrite Forall_forall in P. apply P. rewrite <- (firstn_skipn 64 s). apply in_or_app. auto.
Qed.
Lemma wrap_no_nul : forall f s, plain s -> no_nul (b64_lines f s).
Proof.
  induction f as [|f IH]; intros s P; cbn [b64_lines]; [intros []|]. destruct s as [|c s']; [intros []|]. set (s := c :: s') in *.
  assert (Pp : plain (firstn 64 s) /\ plain (skipn 64 s)) by (apply Forall_app; now rewrite firstn_skipn). destruct Pp as [Pf Ps].
  intro I. apply in_app_or in I. destruct I as [I|I]; [unfold plain in Pf; rewrite Forall_forall in Pf; specialize (Pf 0 I); lia|].
  cbn in I. destruct I as [I|I]; [discriminate|]. exact (IH _ Ps I).
Qed.
Lemma hex_plain' : forall d, all_bytes d -> plain (hex_string d).
Proof. intros d B. eapply Forall_impl; [|exact (AuthDigest.hex_chars d B)]. cbn. intros c H. lia. Qed.

Lemma hex_nonce : forall r, all_bytes r -> len r = 16 -> est_hex_to_str (repeat 0 (Z.to_nat (32 + 1))) 0 r = Ok (hex_string r ++ [0]).
Proof.
  intros r A L. rewrite <- (app_nil_r (repeat 0 _)). apply hex_exact; [exact A|]. rewrite len_repeat. lia.
Qed.

Lemma mb_lift : forall A B (x : A) (f : A -> M B) s, mbind (lift (Ok x)) f s = f x s.
Proof. intros. unfold mbind, lift. cbn [bind]. destruct (f x s) as [e r]. reflexivity. Qed.
Lemma mb_get : forall B (f : client -> M B) s, mbind get f s = f (s_c s) s.
Proof. intros. unfold mbind, get. destruct (f (s_c s) s) as [e r]. reflexivity. Qed.
Lemma mb_run : forall A B (m : M A) (f : A -> M B) s e1 x s', m s = (e1, Ok (x, s')) -> mbind m f s = (e1 ++ fst (f x s'), snd (f x s')).
Proof. intros A B m f s e1 x s' H. unfold mbind. rewrite H. destruct (f x s'). reflexivity. Qed.
Lemma mb_ub : forall A B (m : M A) (f : A -> M B) s e1, m s = (e1, UB) -> mbind m f s = (e1, UB).
Proof. intros A B m f s e1 H. unfold mbind. rewrite H. reflexivity. Qed.

Section Runs.
Variable X : ext.
Variable server_p7 : session -> option bytes.
Notation get_server_cert := (est_brski_get_server_cert server_p7).

Lemma get_cert : forall t b b0, server_p7 t = Some b -> 1 <= len b <= 8192 -> len b0 <= len b ->
  get_server_cert (b0 ++ repeat 0 (Z.to_nat (8192 + 1) - length b0)) t = Ok (EST_ERR_NONE, b ++ repeat 0 (Z.to_nat (8192 + 1) - length b)).
Proof.
  intros t b b0 E L L0. unfold est_brski_get_server_cert. rewrite E. destruct b as [|x b'] eqn:Eb; [cbn in L; lia|]. rewrite <- Eb in *. clear Eb.
  unfold EST_BRSKI_MAX_CACERT_LEN. replace (8192 <? len b) with false by lia. rewrite len_app. unfold len in L0, L.
  assert (Lb : len b0 + len (repeat 0 (Z.to_nat (8192 + 1) - length b0)) = 8193) by (unfold len; rewrite repeat_length; lia). rewrite Lb.
  replace (8193 <? len b) with false by (unfold len; lia). do 3 f_equal.
  rewrite skipn_app, skipn_all2 by lia. cbn [Datatypes.app].
  clear E x b' Lb. remember (length b) as n. remember (length b0) as m. replace (Z.to_nat (8192 + 1) - m)%nat with ((n - m) + (Z.to_nat (8192 + 1) - n))%nat by lia.
  rewrite repeat_app, skipn_app, skipn_all2 by (rewrite repeat_length; lia). rewrite repeat_length, Nat.sub_diag. reflexivity.
Qed.

Lemma send_posts : forall req t c w evs r, fits c -> t_rnd t <> None ->
  est_client_brski_send_voucher_request X false req t {| s_c := c; s_env := w |} = (evs, r) ->
  (forall q, In (ERequest q) evs -> posts (target c (str "requestvoucher")) req q) /\ exchange_of evs
  /\ match r with UB => True | Ok (_, s) => only_http c (s_c s) /\ s_env s = w end.
Proof.
  intros req t c w evs r F N H. unfold est_client_brski_send_voucher_request in H. run_in H.
  change (est_client_brski_build_voucherreq_header X c t false (len req)) with (est_client_brski_build_status_header X c t (len req) (str "requestvoucher")) in H.
  assert (O : only_http c c) by apply only_http_refl.
  destruct (est_client_brski_build_status_header X c t (len req) (str "requestvoucher")) as [h|] eqn:Bh;
    [|injection H as <- <-; split; [intros q []|]; split; [now left|exact Logic.I]].
  destruct (REQ_DATA_MAX <? len req) eqn:L; [injection H as <- <-; split; [intros q []|]; split; [now left|]; cbn; auto|].
  destruct (complete h req) as [q|] eqn:Cq; [|injection H as <- <-; split; [intros q []|]; split; [now left|exact Logic.I]].
  assert (P : posts (target c (str "requestvoucher")) req q).
  { eapply request_posts; [exact F| | |exact N|exact Bh|exact Cq]; [cbn; lia|]. unfold REQ_DATA_MAX in L. lia. }
  unfold exchange in H. run_in H. destruct (t_write t); run_in H; cbn [negb] in H.
  2: { injection H as <- <-. split; [intros q' [J|[]]; injection J as <-; exact P|]. split; [right; left; eauto|]. cbn. split; [|reflexivity]. eexists. reflexivity. }
  unfold get_response in H. run_in H. cbn [c_http put_http] in H.
  assert (E : forall (x : res ((est_error * option bytes) * st)), ([ERequest q; EResponse (t_reads t)], x) = (evs, r) -> (match x with UB => True | Ok (_, s) => only_http c (s_c s) /\ s_env s = w end) ->
    (forall q0, In (ERequest q0) evs -> posts (target c (str "requestvoucher")) req q0) /\ exchange_of evs /\ match r with UB => True | Ok (_, s) => only_http c (s_c s) /\ s_env s = w end).
  { intros x E K. injection E as <- <-. split; [intros q' [J|[J|[]]]; [injection J as <-; exact P|discriminate]|]. split; [right; right; eauto|exact K]. }
  destruct (est_io_get_response _ _ _) as [[[e d] k]|] eqn:G; [|exact (E _ H Logic.I)].
  assert (K : only_http c (put_http k (put_http (set_status 0 (c_http c)) c))) by (eexists; reflexivity).
  destruct (err_eqb e EST_ERR_NONE); [|apply (E _ H); cbn; auto].
  destruct (len (delivered_bytes d) =? 0); [apply (E _ H); cbn; auto|].
  destruct (EST_CA_MAX <? len (delivered_bytes d) + 1); apply (E _ H); cbn; auto.
Qed.

Lemma sent_on_exchange : forall evs cur w rest o q, exchange_of evs -> In (o, q) (sent_on cur w (evs ++ rest)) -> (o = cur /\ In (ERequest q) evs) \/ In (o, q) (sent_on cur w rest).
Proof.
  intros evs cur w rest o q [->|[(p & ->)|(p & r & ->)]] H; cbn in H; auto; (destruct H as [H|H]; [|now right]); left; assert (o = cur) by congruence; assert (p = q) by congruence; subst; (split; [reflexivity|now left]).
Qed.

Variable der : session -> bytes.
Definition cert_text (t : session) : bytes := b64_wrap (b64_encode (der t)).
Definition presents (t : session) : Prop := server_p7 t = Some (cert_text t) /\ all_bytes (der t) /\ der t <> [] /\ len (cert_text t) <= 8192.

Lemma cert_text_len : forall t, len (cert_text t) = let n := 4 * ((len (der t) + 2) / 3) in n + (n + 63) / 64.
Proof. intro t. unfold cert_text. rewrite (b64_wrap_len _ _ (le_n _)), b64_encode_len. reflexivity. Qed.
Lemma cert_text_mono : forall t t', len (der t) <= len (der t') -> len (cert_text t) <= len (cert_text t').
Proof. intros t t' H. rewrite !cert_text_len. cbv zeta. pose proof (len_nonneg _ (der t)). lia. Qed.
Lemma cert_cstr : forall t, presents t -> cstr (cert_text t ++ repeat 0 (Z.to_nat (8192 + 1) - length (cert_text t))) = Ok (cert_text t).
Proof.
  intros t (_ & B & _ & L). unfold len in L. destruct (Z.to_nat (8192 + 1) - length (cert_text t))%nat as [|k] eqn:E; [exfalso; clear - E L; lia|]. cbn [repeat]. apply cstr_app_nul.
  apply wrap_no_nul, b64_plain, B.
Qed.
Lemma cert_pos : forall t, presents t -> 1 <= len (cert_text t).
Proof.
  intros t (_ & _ & N & _). rewrite cert_text_len. cbv zeta. destruct (der t) as [|x d]; [congruence|]. rewrite len_cons. pose proof (len_nonneg _ d). lia.
Qed.

Theorem voucher_requests : forall c w nonce time evs r, fits c -> (forall t, In (Tls t) w -> t_rnd t <> None /\ presents t) ->
  all_bytes nonce -> len nonce = 16 -> len time <= 25 ->
  (forall t1 t2 w', w = Tls t1 :: Tls t2 :: w' -> len (der t1) <= len (der t2)) ->
  ask_for_voucher X server_p7 false (Some nonce) (Some time) {| s_c := c; s_env := w |} = (evs, r) ->
  forall o q, In (o, q) (sent_on None w evs) -> exists t, o = Some t /\ In (Tls t) w
    /\ posts (target c (str "requestvoucher")) (request_text (hex_string nonce) time (cert_text t)) q.
Proof.
  intros c w nonce time evs r F W Bn Ln Lt Two H o q I. unfold ask_for_voucher in H. destruct (connect_run X c w) as (r1 & E1 & H1).
  assert (Hx : len (hex_string nonce) = 32) by (rewrite AuthDigest.hex_len; lia).
  destruct r1 as [[[e|t] s]|]; [destruct H1 as [_ ->]|destruct H1 as [[Hw _] ->]|].
  1,3: first [rewrite (mb_run _ _ _ _ _ _ _ _ E1) in H|rewrite (mb_ub _ _ _ _ _ _ E1) in H]; injection H as <- <-; cbn in I; destruct I.
  rewrite (mb_run _ _ _ _ _ _ _ _ E1) in H. clear E1.
  destruct w as [|a w]; [discriminate|]. cbn [hd_error] in Hw. injection Hw as ->. cbn [tl] in H.
  destruct (W t (or_introl eq_refl)) as [Nt Pt].
  unfold EST_BRSKI_VOUCHER_REQ_NONCE_SIZE, EST_BRSKI_MAX_CACERT_LEN in H.
  assert (Hc : cstr (hex_string nonce ++ [0]) = Ok (hex_string nonce)).
  { apply (cstr_app_nul (hex_string nonce) []). intro J. pose proof (hex_plain' _ Bn) as P. unfold plain in P. rewrite Forall_forall in P. specialize (P 0 J). lia. }
  rewrite (hex_nonce nonce Bn Ln), !mb_lift, Hc, !mb_lift in H.
  pose proof (get_cert t (cert_text t) [] (proj1 Pt) ltac:(pose proof (cert_pos t Pt); destruct Pt as (_ & _ & _ & ?); lia) ltac:(cbn; pose proof (cert_pos t Pt); lia)) as G.
  cbn [Datatypes.app length] in G. rewrite Nat.sub_0_r in G. rewrite G, !mb_lift in H. clear G. cbn [err_eqb negb] in H.
  change (negb (err_eqb EST_ERR_NONE EST_ERR_NONE)) with false in H. cbv iota in H.
  rewrite (cert_cstr t Pt), !mb_lift, build_text in H by (destruct Pt as (_ & _ & _ & ?); lia).
  destruct (est_client_brski_send_voucher_request X false (request_text (hex_string nonce) time (cert_text t)) t {| s_c := c; s_env := w |}) as [ev1 r1] eqn:S1.
  destruct (send_posts _ _ _ _ _ _ F Nt S1) as (Q1 & X1 & R1).
  assert (First : forall rest, In (o, q) (sent_on (Some t) w (ev1 ++ rest)) ->
      (exists t', o = Some t' /\ In (Tls t') (Tls t :: w) /\ posts (target c (str "requestvoucher")) (request_text (hex_string nonce) time (cert_text t')) q)
      \/ In (o, q) (sent_on (Some t) w rest)).
  { intros rest J. apply sent_on_exchange in J; [|exact X1]. destruct J as [[-> J]|J]; [left|right; exact J].
    exists t. split; [reflexivity|]. split; [now left|]. exact (Q1 q J). }
  assert (Only : forall x, (conn c :: ev1 ++ [], x) = (evs, r) -> exists t', o = Some t' /\ In (Tls t') (Tls t :: w) /\ posts (target c (str "requestvoucher")) (request_text (hex_string nonce) time (cert_text t')) q).
  { intros x J. injection J as <- _. cbn [sent_on conn tl] in I. destruct (First [] I) as [J|[]]. exact J. }
  destruct r1 as [[[rv v] s1]|]; [|rewrite (mb_ub _ _ _ _ _ _ S1) in H; apply (Only UB); rewrite app_nil_r; exact H].
  rewrite (mb_run _ _ _ _ _ _ _ _ S1), mb_get in H. clear S1. cbn [fst snd] in H.
  destruct R1 as [[k1 O1] W1]. destruct s1 as [c1 w1]. cbn [s_c s_env] in O1, W1, H. subst w1.
  match type of H with context [if ?b then _ else _] => destruct b end; [|eapply Only; exact H].
  match type of H with context [if ?b then _ else _] => destruct b end; [eapply Only; exact H|].
  destruct (connect_run X c1 w) as (r2 & E2 & H2).
  replace (conn c1) with (conn c) in E2 by (subst c1; reflexivity).
  assert (Fail : forall x, (conn c :: ev1 ++ [conn c], x) = (evs, r) -> exists t', o = Some t' /\ In (Tls t') (Tls t :: w) /\ posts (target c (str "requestvoucher")) (request_text (hex_string nonce) time (cert_text t')) q).
  { intros x J. injection J as <- _. cbn [sent_on conn tl] in I. destruct (First [conn c] I) as [J|J]; [exact J|destruct J]. }
  destruct r2 as [[[e|t2] s2]|]; [destruct H2 as [_ ->]|destruct H2 as [[Hw2 _] ->]|].
  1,3: first [rewrite (mb_run _ _ _ _ _ _ _ _ E2) in H|rewrite (mb_ub _ _ _ _ _ _ E2) in H]; eapply Fail; exact H.
  rewrite (mb_run _ _ _ _ _ _ _ _ E2) in H. clear E2. cbn [fst snd] in H.
  destruct w as [|a2 w]; [discriminate|]. cbn [hd_error] in Hw2. injection Hw2 as ->. cbn [tl] in H.
  destruct (W t2 (or_intror (or_introl eq_refl))) as [Nt2 Pt2]. specialize (Two t t2 w eq_refl).
  rewrite (get_cert t2 (cert_text t2) (cert_text t) (proj1 Pt2)) in H; [|pose proof (cert_pos t2 Pt2); destruct Pt2 as (_ & _ & _ & ?); lia|now apply cert_text_mono].
  rewrite !mb_lift in H. change (negb (err_eqb EST_ERR_NONE EST_ERR_NONE)) with false in H. cbv iota in H.
  rewrite (cert_cstr t2 Pt2), !mb_lift, build_text in H by (destruct Pt2 as (_ & _ & _ & ?); lia).
  destruct (est_client_brski_send_voucher_request X false (request_text (hex_string nonce) time (cert_text t2)) t2 {| s_c := c1; s_env := w |}) as [ev2 r2] eqn:S2.
  assert (F1 : fits c1) by (subst c1; exact F).
  destruct (send_posts _ _ _ _ _ _ F1 Nt2 S2) as (Q2 & X2 & R2).
  assert (E : evs = conn c :: ev1 ++ conn c :: ev2).
  { destruct r2 as [[[rv2 v2] s2]|]; [rewrite (mb_run _ _ _ _ _ _ _ _ S2) in H|rewrite (mb_ub _ _ _ _ _ _ S2) in H]; cbn in H; injection H as <- _; rewrite ?app_nil_r; reflexivity. }
  subst evs. cbn [sent_on conn tl] in I. destruct (First (conn c :: ev2) I) as [J|J]; [exact J|].
  cbn [sent_on conn tl] in J. rewrite <- (app_nil_r ev2) in J. apply sent_on_exchange in J; [|exact X2]. destruct J as [[-> J]|[]].
  exists t2. split; [reflexivity|]. split; [right; now left|]. replace (target c (str "requestvoucher")) with (target c1 (str "requestvoucher")) by (subst c1; reflexivity). exact (Q2 q J).
Qed.
End Runs.
