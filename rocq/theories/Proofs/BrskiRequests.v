(** BRSKI requests of a client, as the server reads them. *)
From Coq Require Import String ZArith List Bool Lia ZifyBool ZifyNat.
From Verif Require Import Base Spec.Http Spec.Uri Spec.UriPath Spec.Base64 Spec.Auth Spec.Requests Model.CLib Model.EstErr Model.Uri Model.HttpServer Model.AuthHdr Model.ClientHttp Model.Client Model.Status Model.VoucherReq
  Proofs.Codec Proofs.ClientCalls Proofs.ClientModes Proofs.Requests.
Import ListNotations.
Open Scope Z_scope.

Definition typed_headers (ct : bytes) (n : Z) : list (bytes * bytes) := [(str "Content-Type", ct); (str "Content-Length", print_int n)].
Definition brski_type (ct : bytes) : Prop := ct = str "application/json" \/ ct = str "application/pkcs7-mime; smime-type=voucher-request".
Definition brski_start (name ct : bytes) (n : Z) (c : client) : bytes :=
  request_start (str "POST") name c ++ (str "Content-Type: " ++ ct) ++ CRLF ++ str "Content-Length: " ++ print_int n ++ CRLF.
Lemma brski_render : forall name ct n c, brski_start name ct n c = request_start (str "POST") name c ++ rendered (typed_headers ct n).
Proof.
  intros. unfold brski_start, rendered, typed_headers, render_header. cbn [map concat fst snd]. rewrite app_nil_r.
  change (str "Content-Type: ") with (str "Content-Type" ++ str ": "). change (str "Content-Length: ") with (str "Content-Length" ++ str ": "). rewrite <- !app_assoc. reflexivity.
Qed.
Lemma typed_good : forall ct n, brski_type ct -> 0 <= n -> good_headers (typed_headers ct n).
Proof.
  intros ct n T H. pose proof (body_good n H) as B. inversion B as [|? ? _ B']; subst. inversion B' as [|? ? Hn _]; subst. constructor; [|constructor; [exact Hn|constructor]].
  destruct T as [-> | ->]; cbn [fst snd]; (split; [lit_name|lit_value]).
Qed.
Lemma brski_start_len : forall name ct n c, good_name name -> plain_server (c_server c) (c_port c) -> good_label (c_path c) -> brski_type ct -> 0 <= n <= 65535 ->
  len (brski_start name ct n c) <= 1100.
Proof.
  intros name ct n c Gn Hs Hl T Hn. destruct (name_facts _ Gn) as (_ & _ & _ & _ & _ & _ & Ln & N10).
  assert (L : len (request_start (str "POST") name c) <= 900)
    by (refine (proj1 (proj2 (proj2 (start_facts (str "POST") name c (fit_of c Hs Hl) _ N10 _ _ _ _)))); try lia; cbn; try lia; try reflexivity; intuition discriminate).
  unfold brski_start. rewrite !len_app. pose proof (print_len n Hn). change (len CRLF) with 2. change (len (str "Content-Type: ")) with 14. change (len (str "Content-Length: ")) with 16.
  assert (len ct <= 60) by (destruct T as [-> | ->]; vm_compute; discriminate). lia.
Qed.
(** The header and the body, as written and as read. *)
Lemma brski_served : forall {S0} (handler : S0 -> est_req -> S0 * Z) X name ct (body : bytes) c t v h q,
  good_name name -> brski_type ct -> plain_server (c_server c) (c_port c) -> good_label (c_path c) -> says X c t (str "requestvoucher") v ->
  add_auth X c t (snprintf_str (brski_start name ct (len body) c) REQ_TOTAL) (str "/.well-known/est/requestvoucher") = Ok h -> complete h body = Ok q ->
  served handler (str "POST") (request_uri (c_path c) name) (base_headers c ++ typed_headers ct (len body) ++ auth_headers v) body q.
Proof.
  intros S0 handler X name ct body c t v h q Gn T Hs Hl A B Q. unfold complete in Q. destruct (REQ_DATA_MAX <? len body) eqn:Lb; [discriminate Q|]. unfold REQ_DATA_MAX in Lb.
  destruct (REQ_TOTAL <? _) eqn:Lt; [discriminate Q|]. unfold REQ_TOTAL in Lt. injection Q as Q. pose proof (len_nonneg _ body).
  pose proof (brski_start_len name ct (len body) c Gn Hs Hl T ltac:(lia)) as L1.
  rewrite (snprintf_whole (brski_start name ct (len body) c) REQ_TOTAL) in B by (unfold REQ_TOTAL; lia).
  assert (Gv : good_name (str "requestvoucher")) by (exists OP_BRSKI_REQ_VOUCHER; reflexivity).
  destruct (add_auth_says X c t (str "requestvoucher") v (brski_start name ct (len body) c) Gv A ltac:(lia)) as [B' G].
  change (str "/.well-known/est/" ++ str "requestvoucher") with (str "/.well-known/est/requestvoucher") in B'. rewrite B' in B. apply ok_same in B.
  rewrite brski_render, <- app_assoc, <- rendered_app in B.
  set (rest := if REQ_TOTAL - len (h ++ CRLF ++ body) =? 2 then [13; 0] else CRLF) in Q. clearbody rest. rewrite <- Q.
  rewrite !len_app in Lt. change (len CRLF) with 2 in Lt.
  assert (Lr : len (rendered (typed_headers ct (len body) ++ auth_headers v)) <= 6000) by (rewrite B, len_app in Lt; pose proof (len_nonneg _ (request_start (str "POST") name c)); lia).
  rewrite B. rewrite <- !app_assoc. apply send_served; try assumption.
  - now right.
  - apply Forall_app. split; [apply typed_good; [exact T|lia]|exact G].
  - destruct v; cbn; lia.
  - right. split; [lia|reflexivity].
Qed.

(** ** The client's functions *)
Ltac nothing := match goal with E : (_, _) = (?evs, _), I : In _ ?evs |- _ => injection E as <- _; contradiction end.
Lemma sent_q : forall q0 q l, (l = [] \/ exists w, l = [EResponse w]) -> In (ERequest q) (ERequest q0 :: l) -> q = q0.
Proof. intros q0 q l [->|[w ->]] [I|I]; try (now injection I); try contradiction. destruct I as [I|[]]; discriminate I. Qed.
Lemma sends_status : forall X op status t s evs r q, send_status X op status t s = (evs, r) -> In (ERequest q) evs ->
  exists h, est_client_brski_build_status_header X (s_c s) t (len status) (status_name op) = Ok h /\ complete h status = Ok q.
Proof.
  intros X op status t [c w] evs r q E I. unfold send_status in E. run_in E. cbn [s_c].
  destruct (est_client_brski_build_status_header X c t (len status) (status_name op)) as [h|]; [|nothing].
  destruct (complete h status) as [q0|] eqn:Q; [|nothing]. exists h. split; [reflexivity|]. rewrite Q. f_equal. symmetry.
  unfold exchange in E. run_in E. destruct (t_write t); run_in E; cbn [negb] in E.
  2: { injection E as <- _. apply (sent_q q0 q []); [now left|exact I]. }
  unfold get_response in E. run_in E. destruct (est_io_get_response _ _ _) as [[[e d] k]|]; injection E as <- _; exact (sent_q q0 q [EResponse (t_reads t)] (or_intror (ex_intro _ _ eq_refl)) I).
Qed.
Lemma sends_voucher_request : forall X sign req t s evs r q, est_client_brski_send_voucher_request X sign req t s = (evs, r) -> In (ERequest q) evs ->
  exists h, est_client_brski_build_voucherreq_header X (s_c s) t sign (len req) = Ok h /\ complete h req = Ok q.
Proof.
  intros X sign req t [c w] evs r q E I. unfold est_client_brski_send_voucher_request in E. run_in E. cbn [s_c].
  destruct (est_client_brski_build_voucherreq_header X c t sign (len req)) as [h|]; [|nothing].
  destruct (REQ_DATA_MAX <? len req); [nothing|].
  destruct (complete h req) as [q0|] eqn:Q; [|nothing]. exists h. split; [reflexivity|]. rewrite Q. f_equal. symmetry.
  unfold exchange in E. run_in E. destruct (t_write t); run_in E; cbn [negb] in E.
  2: { injection E as <- _. apply (sent_q q0 q []); [now left|exact I]. }
  unfold get_response in E. run_in E. apply (sent_q q0 q [EResponse (t_reads t)]); [right; eauto|].
  assert (K : forall x : res ((est_error * option bytes) * st), ([ERequest q0; EResponse (t_reads t)], x) = (evs, r) -> In (ERequest q) [ERequest q0; EResponse (t_reads t)]) by (intros x Ex; injection Ex as <- _; exact I).
  destruct (est_io_get_response _ _ _) as [[[e d] k]|]; [|exact (K _ E)].
  destruct (err_eqb e EST_ERR_NONE); [|exact (K _ E)].
  destruct (len (delivered_bytes d) =? 0); [exact (K _ E)|].
  destruct (EST_CA_MAX <? len (delivered_bytes d) + 1); exact (K _ E).
Qed.
