(** Runs of the client: what C32, C34 and C35 do not exclude, and that the
    hypotheses of Properties/Client.v are met. *)
From Coq Require Import String ZArith List Bool Lia.
From Verif Require Import Base Spec.Server Properties.Multipart Spec.Http Spec.Client Spec.Multipart Spec.ClientCalls Model.CLib Model.EstErr Model.HttpServer Model.Uri Model.AuthHdr Model.ClientHttp Model.Multipart Model.Host Model.Client Proofs.ClientHistory.
Import ListNotations.
Open Scope Z_scope.

(** Make calls one after the other. *)
Fixpoint play (X : ext) (xs : list call) (log : list entry) (s : st) : option (list entry * st) :=
  match xs with
  | [] => Some (log, s)
  | x :: xs => match perform X x s with
    | (evs, Ok (e, o, s')) => play X xs (log ++ [{| e_call := x; e_events := evs; e_code := e; e_out := o |}]) s'
    | _ => None
    end
  end.
Lemma play_history : forall X xs log s0 s log' s', history X s0 log s -> play X xs log s = Some (log', s') -> history X s0 log' s' /\ map e_call log' = map e_call log ++ xs.
Proof.
  intros X. induction xs as [|x xs IH]; intros log s0 s log' s' H E; cbn [play] in E.
  - injection E as <- <-. rewrite app_nil_r. auto.
  - destruct (perform X x s) as [evs [[[e o] s1]|]] eqn:P; [|discriminate]. apply (IH _ s0) in E as [E1 E2]; [|eapply history_call; eauto].
    split; [exact E1|]. rewrite E2, map_app, <- app_assoc. reflexivity.
Qed.
(** A property, checked by computing, of what some calls lead to. *)
Lemma shown : forall X xs a w (P : list entry -> st -> bool), match play X xs [] (fresh a w) with Some (log, s) => P log s | None => false end = true ->
  exists log s, history X (fresh a w) log s /\ map e_call log = xs /\ P log s = true.
Proof.
  intros X xs a w P H. destruct (play X xs [] (fresh a w)) as [[log s]|] eqn:E; [|discriminate]. exists log, s.
  destruct (play_history X xs [] (fresh a w) (fresh a w) log s) as [H1 H2]; [constructor|exact E|]. auto.
Qed.
(** The lines of a request that start as given. *)
Definition with_line (p s : bytes) : bool := existsb (prefixb p) (lines s).
Lemma with_line_spec : forall p s, with_line p s = true <-> has_line p s.
Proof.
  intros p s. unfold with_line, has_line. rewrite existsb_exists. split; intros (l & I & H); exists l; (split; [exact I|]); now apply prefixb_spec.
Qed.

(** What the libraries and servers do in these runs. *)
Definition X0 : ext := {|
  x_pton4 := fun _ => None; x_pton6 := fun _ => None; x_md5 := fun _ => repeat 7 16; x_bio := fun _ _ _ => []; x_fips := false; x_junk := fun _ => 0;
  x_uri := fun _ => None; x_brski := false; x_G := fun _ => None;
  x_make_csr := fun _ _ _ => (EST_ERR_NONE, str "request"); x_sign_csr := fun _ _ _ => (EST_ERR_NONE, str "request"); x_csr_of_cert := fun c _ => (EST_ERR_NONE, if beq c (str "odd") then None else Some (str "request"));
  x_key_matches := fun _ _ => false; x_p7_certs := fun _ => (EST_ERR_NONE, [str "A"]); x_self_issued := fun _ => true; x_verify := fun _ _ _ => -1; x_remove_crls := fun b => (EST_ERR_NONE, b);
  x_to_pem := fun b => Some b; x_load_certs := fun _ => EST_ERR_NONE |}.
Lemma X0_lawful : lawful X0.
Proof. constructor; intros; cbn; (split; [repeat split; discriminate|repeat constructor; lia]). Qed.
Definition answering (write : bool) (d : bytes) : attempt :=
  Tls {| t_cert := Some (Some [DNS (str "a.example"); DNS (str "b.example")], []); t_srp := false; t_own := str "0123456789ab"; t_peer := str "0123456789ab"; t_reused := false; t_tls13 := false;
         t_rnd := Some (str "12345678"); t_cred := no_cred; t_write := write; t_reads := [Data d; Data []] |}.
Definition asking : bytes := str "HTTP/1.1 401 Unauthorized" ++ CRLF ++ str "WWW-Authenticate: Basic realm=""estrealm""" ++ CRLF ++ str "Content-Length: 0" ++ CRLF ++ CRLF.
Definition giving (type body : string) (n : string) : bytes := str "HTTP/1.1 200 OK" ++ CRLF ++ str "Content-Type: " ++ str type ++ CRLF ++ str "Content-Length: " ++ str n ++ CRLF ++ CRLF ++ str body.
Definition server (n : string) : call := SetServer (Some (str n)) 443 None.

(** C32: credentials for one server are sent to another that never asked for
    them.  Re-enrollment is challenged by a.example and its second connection
    fails; the scheme stays, and the next call, to b.example, uses it. *)
Theorem C32_afresh_refuted : exists X a w log s x evs r q,
  lawful X /\ history X (fresh a w) log s /\ Forall (fun e => proper (e_call e)) log /\ ~ In BasicHint (map e_call log) /\ proper x /\ enrollment x
  /\ perform X x s = (evs, r) /\ evs = [EConnect (str "b.example") 443 a; ERequest q] /\ credentials q
  /\ (forall sv p an, In (EConnect sv p an) (events_of log) -> sv = str "a.example").
Proof.
  set (xs := [server "a.example"; SetAuth (Some (str "user")) (Some (str "secret")) None; Reenroll (Some (str "cert")) (Some (str "key")); server "b.example"]).
  set (w := [answering true asking; Refused NoTls; answering false []]).
  set (x := EnrollCsr (Some (str "request")) None).
  assert (H : exists log s, history X0 (fresh (str "anchors") w) log s /\ map e_call log = xs /\
    (forallb (fun v => match v with EConnect sv _ _ => beq sv (str "a.example") | _ => true end) (events_of log)
     && match fst (perform X0 x s) with
        | [EConnect sv p an; ERequest q] => beq sv (str "b.example") && (p =? 443) && beq an (str "anchors") && with_line (str "Authorization:") q
        | _ => false
        end) = true).
  { apply (shown X0 xs _ _ (fun log s => _)). vm_compute. reflexivity. }
  destruct H as (log & s & H & Ec & B). apply andb_prop in B as [B1 B2]. destruct (perform X0 x s) as [evs r] eqn:P. cbn [fst] in B2.
  destruct evs as [|[sv p an| |] [|[|q|] [|]]]; try discriminate. apply andb_prop in B2 as [B2 B3]. apply andb_prop in B2 as [B2 B4]. apply andb_prop in B2 as [B2 B5].
  apply beq_eq in B2, B4. apply Z.eqb_eq in B5. subst sv p an.
  exists X0, (str "anchors"), w, log, s, x, [EConnect (str "b.example") 443 (str "anchors"); ERequest q], r, q. split; [exact X0_lawful|]. split; [exact H|].
  split; [|split; [|split; [|split; [exact I|split; [exact P|split; [reflexivity|split; [now apply with_line_spec|]]]]]]].
  - apply Forall_map with (f := e_call) (P := proper). rewrite Ec. repeat constructor; cbn; intuition discriminate.
  - rewrite Ec. cbn. intuition discriminate.
  - cbn. repeat constructor; lia.
  - intros sv p an In0. rewrite forallb_forall in B1. specialize (B1 _ In0). now apply beq_eq in B1.
Qed.
Print Assumptions C32_afresh_refuted.

(** A run that meets the hypotheses of C32: an enrollment that is challenged
    twice fails, and the second request offers what the first challenge asked for. *)
Example C32_case : exists log s q1 q2 r sv p a, history X0 (fresh a [answering true asking; answering true asking]) log s
  /\ Forall (fun e => proper (e_call e)) log
  /\ events_of log = [EConnect sv p a; ERequest q1; EResponse r; EConnect sv p a; ERequest q2; EResponse r]
  /\ map e_code log = [EST_ERR_NONE; EST_ERR_NONE; EST_ERR_AUTH_FAIL] /\ ~ credentials q1 /\ credentials q2 /\ offers (str "Basic") q2
  /\ exists d, arrives r d /\ status401 d.
Proof.
  set (xs := [server "a.example"; SetAuth (Some (str "user")) (Some (str "secret")) None; Enroll (str "name") (Some (str "key"))]).
  set (w := [answering true asking; answering true asking]).
  assert (H : exists log s, history X0 (fresh (str "anchors") w) log s /\ map e_call log = xs /\
    (match events_of log, map e_code log with
     | [EConnect s1 p1 a1; ERequest q1; EResponse [Data d1; Data []]; EConnect s2 p2 a2; ERequest q2; EResponse [Data d2; Data []]], [EST_ERR_NONE; EST_ERR_NONE; EST_ERR_AUTH_FAIL] =>
       beq s1 s2 && (p1 =? p2) && beq a1 (str "anchors") && beq a2 (str "anchors") && beq d1 asking && beq d2 asking
       && negb (with_line (str "Authorization:") q1) && with_line (str "Authorization:") q2 && with_line (str "Authorization: Basic ") q2
     | _, _ => false
     end) = true).
  { apply (shown X0 xs _ _ (fun log s => _)). vm_compute. reflexivity. }
  destruct H as (log & s & H & Ec & B).
  destruct (events_of log) as [|[s1 p1 a1| |] [|[|q1|] [|[| |r1] l]]] eqn:Ev; try discriminate.
  destruct r1 as [|[d1|] [|[[|? ?]|] [|]]]; try discriminate. destruct l as [|[s2 p2 a2| |] [|[|q2|] [|[| |r2] l]]]; try discriminate.
  destruct r2 as [|[d2|] [|[[|? ?]|] [|]]]; try discriminate. destruct l; [|discriminate].
  assert (Em : map e_code log = [EST_ERR_NONE; EST_ERR_NONE; EST_ERR_AUTH_FAIL]).
  { destruct (map e_code log) as [|e1 [|e2 [|e3 [|]]]]; try discriminate; try (destruct e1; discriminate); try (destruct e1; try discriminate; destruct e2; discriminate);
      destruct e1; try discriminate; destruct e2; try discriminate; destruct e3; try discriminate; reflexivity. }
  rewrite Em in B. repeat match goal with B : _ && _ = true |- _ => apply andb_prop in B as [B ?] end.
  repeat match goal with B : beq _ _ = true |- _ => apply beq_eq in B end. match goal with B : (_ =? _) = true |- _ => apply Z.eqb_eq in B end. subst.
  exists log, s, q1, q2, [Data asking; Data []], s2, p2, (str "anchors"). split; [exact H|]. split.
  { apply Forall_map with (f := e_call) (P := proper). rewrite Ec. repeat constructor; cbn; intuition discriminate. }
  split; [exact Ev|]. split; [exact Em|]. repeat match goal with |- _ /\ _ => split end; try (now apply with_line_spec).
  - intro C. apply with_line_spec in C. match goal with N : negb _ = true |- _ => rewrite C in N; discriminate end.
  - exists asking. split; [|now exists (skipn 12 asking)]. exists [asking], []. split; [reflexivity|]. split; [repeat constructor; discriminate|]. cbn [concat]. apply app_nil_r.
Qed.
Print Assumptions C32_case.

(** The codes and copies of some calls. *)
Lemma outcomes : forall X xs a w l, match play X xs [] (fresh a w) with Some (log, _) => Some (map (fun e => (e_code e, e_out e)) log) | None => None end = Some l ->
  exists log s, history X (fresh a w) log s /\ map e_call log = xs /\ map (fun e => (e_code e, e_out e)) log = l.
Proof.
  intros X xs a w l H. destruct (play X xs [] (fresh a w)) as [[log s]|] eqn:E; [|discriminate]. exists log, s.
  destruct (play_history X xs [] (fresh a w) (fresh a w) log s) as [H1 H2]; [constructor|exact E|]. injection H as <-. auto.
Qed.
(** A certificate is copied out, once. *)
Example C34_case : exists a w cert log s, history X0 (fresh a w) log s /\ map e_call log = [server "a.example"; Enroll (str "name") (Some (str "key")); CopyCert true; CopyCert true]
  /\ map (fun e => (e_code e, e_out e)) log = [(EST_ERR_NONE, None); (EST_ERR_NONE, None); (EST_ERR_NONE, Some cert); (EST_ERR_NO_CERTIFICATE, None)] /\ cert = str "certificate".
Proof.
  exists (str "anchors"), [answering true (giving "application/pkcs7-mime; smime-type=certs-only" "certificate" "11")], (str "certificate").
  edestruct outcomes as (log & s & H); [|exists log, s; destruct H as (H1 & H2 & H3); split; [exact H1|split; [exact H2|split; [exact H3|reflexivity]]]].
  vm_compute. reflexivity.
Qed.
Print Assumptions C34_case.

(** C34: an operation that fails, because the key is not that of the
    certificate, makes both available all the same. *)
Definition with_reads (r : list net) : attempt := match answering true [] with
  | Tls t => Tls {| t_cert := t_cert t; t_srp := t_srp t; t_own := t_own t; t_peer := t_peer t; t_reused := t_reused t; t_tls13 := t_tls13 t; t_rnd := t_rnd t; t_cred := t_cred t; t_write := true; t_reads := r |}
  | x => x end.
Definition ready (r : list net) : st := match play X0 [server "a.example"] [] (fresh (str "anchors") [with_reads r]) with Some (_, s) => s | None => fresh [] [] end.
Lemma server_ready : forall r, perform X0 (server "a.example") (fresh (str "anchors") [with_reads r]) = ([], Ok (EST_ERR_NONE, None, ready r)).
Proof. intro r. vm_compute. reflexivity. Qed.
Lemma then_ : forall {A B} (m : M A) (f : A -> M B) s e1 x s1 e2 r, m s = (e1, Ok (x, s1)) -> f x s1 = (e2, r) -> mbind m f s = (e1 ++ e2, r).
Proof. intros A B m f s e1 x s1 e2 r H1 H2. unfold mbind. rewrite H1, H2. reflexivity. Qed.
Ltac now_ := eapply then_; [vm_compute; reflexivity|cbv beta iota].

Lemma keygen_run : forall R k x, (forall j c, est_io_get_keygen_response j R c = Ok (EST_ERR_NONE, Some (k, x), set_status 200 c)) -> checked_cert k x true = EST_ERR_NONE ->
  exists evs s', perform X0 (Keygen (str "name") (Some (str "key"))) (ready R) = (evs, Ok (EST_ERR_VALIDATION, None, s')) /\ c_key (s_c s') = Some k /\ c_cert (s_c s') = Some x /\ c_init (s_c s') = true.
Proof.
  intros R k x HR HC. do 2 eexists. split.
  { unfold perform, plain, est_client_server_keygen_enroll, est_client_enroll_internal. eapply then_.
    { now_. replace (negb (c_init _)) with false by (vm_compute; reflexivity). cbv iota. eapply then_.
      { unfold twice. now_. eapply then_.
        { unfold est_client_enroll_cn. now_. now_. now_. 
          match goal with |- context [x_make_csr X0 ?a ?b ?c] => replace (x_make_csr X0 a b c) with (EST_ERR_NONE, str "request") by (vm_compute; reflexivity) end. cbv beta iota.
          replace (EstErr.err_eqb EST_ERR_NONE EST_ERR_NONE) with true by reflexivity. cbv iota.
          unfold est_client_enroll_req. eapply then_.
          { unfold est_client_send_enroll_request. now_. now_. replace (len _ =? 0) with false by (vm_compute; reflexivity). now_. now_.
            change (negb true) with false. cbv iota. eapply then_.
            { change (is_keygen OP_SERVER_KEYGEN) with true. cbv iota. eapply then_.
              { unfold get_keygen_response. now_. eapply then_.
                - unfold lift. cbn [t_reads]. rewrite HR. cbn [bind]. reflexivity.
                - cbv beta iota. reflexivity. }
              cbv beta iota. reflexivity. }
            cbv beta iota. replace (negb (EstErr.err_eqb EST_ERR_NONE EST_ERR_NONE)) with false by reflexivity. cbv zeta iota.
            change (is_keygen OP_SERVER_KEYGEN) with true. rewrite HC. replace (EstErr.err_eqb EST_ERR_NONE EST_ERR_NONE) with true by reflexivity. cbv iota. reflexivity. }
          cbv beta iota. replace (negb (EstErr.err_eqb EST_ERR_NONE EST_ERR_NONE)) with false by reflexivity. cbv iota. now_.
          change (is_keygen OP_SERVER_KEYGEN) with true. cbv iota. now_. reflexivity. }
        now_. reflexivity. }
      cbv beta iota. now_. reflexivity. }
    cbv beta. reflexivity. }
  cbn. auto.
Qed.
Theorem C34_failed_refuted : exists X a w log s key cert, lawful X /\ history X (fresh a w) log s /\ map e_call log = [server "a.example"; Keygen (str "name") (Some (str "key")); CopyCert true; CopyKey true]
  /\ map (fun e => (e_code e, e_out e)) log = [(EST_ERR_NONE, None); (EST_ERR_VALIDATION, None); (EST_ERR_NONE, Some cert); (EST_ERR_NONE, Some key)].
Proof.
  destruct (keygen_run [Data (kg_head ++ keygen_body k300 c200); Data []] k300 c200 C37_case) as (evs & [c w] & P & K & C & N); [vm_compute; reflexivity|]. cbn [s_c] in K, C, N.
  pose proof (history_call X0 _ _ _ _ _ _ _ _ (history_nil X0 (fresh (str "anchors") [with_reads [Data (kg_head ++ keygen_body k300 c200); Data []]])) (server_ready _)) as H.
  apply (fun H => history_call X0 _ _ _ _ _ _ _ _ H P) in H.
  eapply (fun H => history_call X0 _ _ _ (CopyCert true) [] EST_ERR_NONE (Some c200) {| s_c := put_cert None c; s_env := w |} H) in H;
    [|cbn [perform]; unfold est_client_copy_enrolled_cert, mbind, get; cbn [s_c]; rewrite N, C; reflexivity].
  eapply (fun H => history_call X0 _ _ _ (CopyKey true) [] EST_ERR_NONE (Some k300) {| s_c := put_key None (put_cert None c); s_env := w |} H) in H;
    [|cbn [perform]; unfold est_client_copy_server_generated_key, mbind, get; cbn [s_c put_cert c_init c_key]; rewrite N, K; reflexivity].
  do 7 eexists. split; [exact X0_lawful|]. split; [exact H|]. split; reflexivity.
Qed.
Print Assumptions C34_failed_refuted.
(** A re-enrollment reports success although nothing was sent (the request
    could not be made), and there is no new certificate. *)
Theorem C34_unsent_refuted : exists X a w log s cert key, lawful X /\ history X (fresh a w) log s /\ map e_call log = [server "a.example"; Reenroll cert key; CopyCert true]
  /\ events_of log = [] /\ map e_code log = [EST_ERR_NONE; EST_ERR_NONE; EST_ERR_NO_CERTIFICATE].
Proof.
  exists X0, (str "anchors"), []. destruct (play X0 [server "a.example"; Reenroll (Some (str "odd")) (Some (str "key")); CopyCert true] [] (fresh (str "anchors") [])) as [[log s]|] eqn:E; [|vm_compute in E; discriminate].
  destruct (play_history X0 _ [] (fresh (str "anchors") []) _ log s (history_nil _ _) E) as [H1 H2]. vm_compute in E. injection E as <- <-.
  do 4 eexists. split; [exact X0_lawful|]. split; [exact H1|]. split; [reflexivity|]. split; reflexivity.
Qed.
Print Assumptions C34_unsent_refuted.

(** C35: the CA certificates of an earlier download are copied out although the
    last download failed; they count as verified although the verification of
    every one of them ended with an error (X509_verify_cert below zero); and
    the client, which should now refuse all operations, asks the server for CSR
    attributes. *)
Theorem C35_stale_refuted : exists X a w log s text evs r, lawful X /\ history X (fresh a w) log s
  /\ map e_call log = [server "a.example"; GetCacerts true; GetCacerts true; CopyCacerts true]
  /\ map (fun e => (e_code e, e_out e)) log = [(EST_ERR_NONE, None); (EST_ERR_NONE, None); (EST_ERR_SSL_CONNECT, None); (EST_ERR_NONE, Some text)]
  /\ (forall t u x, x_verify X t u x < 0)
  /\ perform X (GetCsrattrs true) s = (evs, r) /\ exists q, In (ERequest q) evs.
Proof.
  set (w := [answering true (giving "application/pkcs7-mime" "authorities" "11"); Refused NoTls; answering false []]).
  set (xs := [server "a.example"; GetCacerts true; GetCacerts true; CopyCacerts true]).
  assert (H : exists log s, history X0 (fresh (str "anchors") w) log s /\ map e_call log = xs /\
    (match map (fun e => (e_code e, e_out e)) log with
     | [(EST_ERR_NONE, None); (EST_ERR_NONE, None); (EST_ERR_SSL_CONNECT, None); (EST_ERR_NONE, Some x)] => beq x (str "authorities") | _ => false end
     && existsb (fun v => match v with ERequest _ => true | _ => false end) (fst (perform X0 (GetCsrattrs true) s))) = true).
  { apply (shown X0 xs _ _ (fun log s => _)). vm_compute. reflexivity. }
  destruct H as (log & s & H & Ec & B). apply andb_prop in B as [B1 B2]. destruct (perform X0 (GetCsrattrs true) s) as [evs r] eqn:P. cbn [fst] in B2.
  exists X0, (str "anchors"), w, log, s, (str "authorities"), evs, r. split; [exact X0_lawful|]. split; [exact H|]. split; [exact Ec|]. split.
  { destruct (map (fun e => (e_code e, e_out e)) log) as [|[e1 [o1|]] [|[e2 [o2|]] [|[e3 [o3|]] [|[e4 [o4|]] [|]]]]]; try discriminate; try (destruct e1; try discriminate; destruct e2; try discriminate; destruct e3; try discriminate; destruct e4; discriminate).
    destruct e1; try discriminate. destruct e2; try discriminate. destruct e3; try discriminate. destruct e4; try discriminate. apply beq_eq in B1. now subst. }
  split; [intros; reflexivity|]. split; [exact P|]. apply existsb_exists in B2 as ([|q|] & I & B2); try discriminate. eauto.
Qed.
Print Assumptions C35_stale_refuted.

(** C65: provisioning downloads CA certificates, and connects again with the old
    trust anchors. *)
Theorem C65_provision_refuted : exists X w log s a text p1 p2 a1 q r rest, lawful X /\ history X (fresh a w) log s /\ a <> text
  /\ events_of log = EConnect (str "a.example") p1 a1 :: ERequest q :: EResponse r :: EConnect (str "a.example") p2 a :: rest
  /\ c_store (s_c s) = Some text.
Proof.
  set (w := [answering true (giving "application/pkcs7-mime" "authorities" "11"); Refused NoTls]).
  set (xs := [server "a.example"; Provision (str "name") (Some (str "key"))]).
  assert (H : exists log s, history X0 (fresh (str "anchors") w) log s /\ map e_call log = xs /\
    match events_of log, c_store (s_c s) with
    | EConnect s1 p1 a1 :: ERequest q :: EResponse r :: EConnect s2 p2 a2 :: rest, Some x => beq s1 (str "a.example") && beq s2 (str "a.example") && beq a2 (str "anchors") && beq x (str "authorities")
    | _, _ => false
    end = true).
  { apply (shown X0 xs _ _ (fun log s => _)). vm_compute. reflexivity. }
  destruct H as (log & s & H & Ec & B). destruct (events_of log) as [|[s1 p1 a1| |] [|[|q|] [|[| |r] [|[s2 p2 a2| |] rest]]]] eqn:Ev; try discriminate.
  destruct (c_store (s_c s)) as [x|] eqn:Cs; [|discriminate]. apply andb_prop in B as [B B4]. apply andb_prop in B as [B B3]. apply andb_prop in B as [B1 B2]. apply beq_eq in B1, B2, B3, B4. subst.
  exists X0, w, log, s, (str "anchors"), (str "authorities"), p1, p2, a1, q, r, rest. split; [exact X0_lawful|]. split; [exact H|]. split; [discriminate|]. split; [exact Ev|exact Cs].
Qed.
Print Assumptions C65_provision_refuted.
