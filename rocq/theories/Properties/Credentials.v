(** C90: the credentials a client presents are those the application gave it
    last.  Read with Spec/Credentials.v, Spec/ClientCalls.v, Spec/Requests.v and
    Spec/Auth.v. *)
From Coq Require Import String ZArith List Bool Lia ZifyBool.
From Verif Require Import Base Spec.Http Spec.Client Spec.Base64 Spec.Auth Spec.Requests Spec.ClientCalls Spec.Credentials Model.CLib Model.EstErr Model.Uri Model.HttpServer Model.AuthHdr Model.ClientHttp Model.Client
  Proofs.Codec Proofs.AuthHdr Proofs.EstErr Proofs.Credentials Properties.Requests.
Import ListNotations.
Open Scope Z_scope.

(** When setting credentials is accepted. *)
Theorem C90_accepted : forall X uid pwd cert s, exists e s',
  perform X (SetAuth uid pwd cert) s = ([], Ok (e, None, s'))
  /\ (e = EST_ERR_NONE <->
      cert <> Some false
      /\ ((uid = None /\ pwd = None) \/ exists u p, uid = Some u /\ pwd = Some p /\ len u <= 255 /\ len p <= 255))
  /\ (e = EST_ERR_CLIENT_INVALID_KEY <->
      cert = Some false
      /\ ((uid = None /\ pwd = None) \/ exists u p, uid = Some u /\ pwd = Some p /\ len u <= 255 /\ len p <= 255))
  /\ (e = EST_ERR_NONE \/ e = EST_ERR_CLIENT_INVALID_KEY \/ e = EST_ERR_INVALID_PARAMETERS).
Proof.
  intros X uid pwd cert [c w]. eexists _, _. split; [apply set_auth_run|]. unfold auth_code.
  destruct uid as [u|], pwd as [p|].
  - destruct (255 <? len u) eqn:L; [|destruct (255 <? len p) eqn:L2]; cbn [orb].
    + split; [|split; [|now right; right]]; (split; [discriminate|]); intros [_ [[? _]|(u' & p' & U & P & Lu & Lp)]]; try discriminate; injection U as <-; lia.
    + split; [|split; [|now right; right]]; (split; [discriminate|]); intros [_ [[? _]|(u' & p' & U & P & Lu & Lp)]]; try discriminate; injection P as <-; lia.
    + assert (F : exists u' p', Some u = Some u' /\ Some p = Some p' /\ len u' <= 255 /\ len p' <= 255) by (exists u, p; repeat split; lia).
      destruct cert as [[|]|]; (split; [|split; [|auto]]); (split; [intro; first [discriminate|split; [congruence|right; exact F]]|intros [? _]; congruence]).
  - split; [|split; [|now right; right]]; (split; [discriminate|]); intros [_ [[? _]|(u' & p' & U & P & Lu & Lp)]]; discriminate.
  - split; [|split; [|now right; right]]; (split; [discriminate|]); intros [_ [[? ?]|(u' & p' & U & P & Lu & Lp)]]; discriminate.
  - cbn [orb]. assert (F : (@None bytes = None /\ @None bytes = None) \/ exists u' p', @None bytes = Some u' /\ @None bytes = Some p' /\ len u' <= 255 /\ len p' <= 255) by (left; auto).
    destruct cert as [[|]|]; (split; [|split; [|auto]]); (split; [intro; first [discriminate|split; [congruence|exact F]]|intros [? _]; congruence]).
Qed.
Print Assumptions C90_accepted.

(** After any sequence of calls the client uses the user name, the password and
    the callback that the latest effective call gave it, and no other call
    changes them. *)
Theorem C90_held : forall X anchors world log s, history X (fresh anchors world) log s ->
  latest names [] log (c_user (s_c s)) /\ latest gives [] log (c_pwd (s_c s)) /\ latest installs false log (c_cb (s_c s)).
Proof. exact credentials_held. Qed.
Print Assumptions C90_held.

(** So the user name and password that reach a server which asked for Basic
    authentication are those the application gave last. *)
Theorem C90_presented : forall bio X anchors world log s op body t evs r q user pwd uid, b64_bio bio ->
  history X (fresh anchors world) log s -> latest names [] log user -> latest gives [] log pwd ->
  In op [OP_SIMPLE_ENROLL; OP_SIMPLE_REENROLL; OP_SERVER_KEYGEN] -> addresses (s_c s) -> k_mode (c_http (s_c s)) = AUTH_BASIC ->
  c_str_max 255 user -> c_str_max 255 pwd -> user <> [] -> ~ In 58 user ->
  est_client_send_enroll_request X op body t s = (evs, r) -> In (ERequest q) evs ->
  forall S0 (handler : S0 -> est_req -> S0 * Z) ka s0 w, concat w = q -> exists rq st s1,
    process_new_connection S0 handler ka s0 w = Ok ([EvServed rq st], s1)
    /\ exists a uid', mg_parse_auth_header bio AUTH_BASIC (get_header (er_headers rq) (str "Authorization")) est_create_ah uid = Ok (HDR_GOOD, a, uid')
       /\ ah_user a = Some user /\ ah_pwd a = Some pwd.
Proof.
  intros bio X anchors world log s op body t evs r q user pwd uid Hb H Lu Lp P A M Cu Cp Nu N58 E I S0 handler ka s0 w W.
  destruct (C90_held _ _ _ _ _ H) as (Hu & Hp & _).
  rewrite (latest_unique _ names _ _ _ _ names_one Lu Hu) in *. rewrite (latest_unique _ gives _ _ _ _ gives_one Lp Hp) in *.
  assert (U : uses (c_user (s_c s)) (c_pwd (s_c s)) (if c_cb (s_c s) then t_cred t else no_cred) (c_user (s_c s)) (c_pwd (s_c s))).
  { left. split; [reflexivity|]. split; [reflexivity|]. intros [Z _]. now apply Nu. }
  destruct (C85_login bio X op body t s evs r q _ _ uid Hb P A M U Cu Cp Nu N58 E I S0 handler ka s0 w W) as (rq & st & s1 & R1 & _ & _ & R2).
  exists rq, st, s1. split; [exact R1|exact R2].
Qed.
Print Assumptions C90_presented.

(** A refused call can change the identity all the same: with a password of more
    than 255 octets the new user name is stored, beside the old password. *)
Theorem C90_refused_refuted : exists X anchors world log s s',
  history X (fresh anchors world) log s
  /\ latest names [] log (str "alice") /\ latest gives [] log (str "secret")
  /\ perform X (SetAuth (Some (str "bob")) (Some (repeat 120 256)) None) s = ([], Ok (EST_ERR_INVALID_PARAMETERS, None, s'))
  /\ c_user (s_c s') = str "bob" /\ c_pwd (s_c s') = str "secret".
Proof.
  set (x := SetAuth (Some (str "alice")) (Some (str "secret")) None).
  pose (s := {| s_c := after_auth (Some (str "alice")) (Some (str "secret")) (est_client_init []); s_env := [] |}).
  pose (log := [{| e_call := x; e_events := []; e_code := EST_ERR_NONE; e_out := None |}]).
  assert (H : history X1 (fresh [] []) log s).
  { change log with ([] ++ log). apply (history_call X1 (fresh [] []) [] (fresh [] []) x [] EST_ERR_NONE None s); [constructor|]. unfold x, fresh. rewrite set_auth_run. reflexivity. }
  exists X1, [], [], log, s, {| s_c := put_user (str "bob") (s_c s); s_env := [] |}. split; [exact H|].
  split; [apply (latest_snoc_new _ names [] []); exists (str "secret"), None; split; [reflexivity|vm_compute; discriminate]|].
  split; [apply (latest_snoc_new _ gives [] []); exists (str "alice"), None; split; [reflexivity|]; split; vm_compute; discriminate|].
  split; [vm_compute; reflexivity|]. split; reflexivity.
Qed.
Print Assumptions C90_refused_refuted.

(** Otherwise a refused call changes nothing. *)
Theorem C90_refused_partial : forall X uid pwd cert s e s',
  perform X (SetAuth uid pwd cert) s = ([], Ok (e, None, s')) -> e = EST_ERR_INVALID_PARAMETERS ->
  s' = s \/ exists u p, uid = Some u /\ pwd = Some p /\ len u <= 255 /\ 255 < len p
            /\ s' = {| s_c := put_user u (s_c s); s_env := s_env s |}.
Proof.
  intros X uid pwd cert [c w] e s' H E. rewrite set_auth_run in H. injection H as <- <-. unfold auth_code, after_auth in *.
  destruct uid as [u|], pwd as [p|]; try (now left).
  - destruct (255 <? len u) eqn:L; [now left|]. destruct (255 <? len p) eqn:L2; [|destruct cert as [[|]|]; discriminate].
    right. exists u, p. repeat split; lia.
  - destruct cert as [[|]|]; discriminate.
Qed.
Print Assumptions C90_refused_partial.

(** Alice logs in, then as Bob with a key OpenSSL rejects: from then on she is
    Bob; giving neither name nor password changes nothing. *)
Example C90_case : exists log s, history X1 (fresh [] []) log s /\ length log = 4%nat
  /\ latest names [] log (str "bob") /\ latest gives [] log (str "hunter2") /\ latest installs false log true
  /\ map e_code log = [EST_ERR_NONE; EST_ERR_CLIENT_INVALID_KEY; EST_ERR_NONE; EST_ERR_NONE].
Proof.
  pose (xs := [(SetAuth (Some (str "alice")) (Some (str "secret")) None, EST_ERR_NONE); (SetAuth (Some (str "bob")) (Some (str "hunter2")) (Some false), EST_ERR_CLIENT_INVALID_KEY);
               (SetCallback true, EST_ERR_NONE); (SetAuth None None None, EST_ERR_NONE)]).
  pose (log := map (fun '(x, e) => {| e_call := x; e_events := []; e_code := e; e_out := None |}) xs).
  assert (H : exists s, history X1 (fresh [] []) log s).
  { pose proof (history_nil X1 (fresh [] [])) as H0.
    eassert (E1 : perform X1 (fst (nth 0 xs (SetCallback true, EST_ERR_NONE))) (fresh [] []) = ([], Ok (EST_ERR_NONE, None, _))) by (vm_compute; reflexivity).
    pose proof (history_call _ _ _ _ _ _ _ _ _ H0 E1) as H1. clear H0 E1.
    eassert (E2 : perform X1 (fst (nth 1 xs (SetCallback true, EST_ERR_NONE))) _ = ([], Ok (EST_ERR_CLIENT_INVALID_KEY, None, _))) by (vm_compute; reflexivity).
    pose proof (history_call _ _ _ _ _ _ _ _ _ H1 E2) as H2. clear H1 E2.
    eassert (E3 : perform X1 (SetCallback true) _ = ([], Ok (EST_ERR_NONE, None, _))) by (vm_compute; reflexivity).
    pose proof (history_call _ _ _ _ _ _ _ _ _ H2 E3) as H3. clear H2 E3.
    eassert (E4 : perform X1 (SetAuth None None None) _ = ([], Ok (EST_ERR_NONE, None, _))) by (vm_compute; reflexivity).
    pose proof (history_call _ _ _ _ _ _ _ _ _ H3 E4) as H4. eexists. exact H4. }
  destruct H as (s & H). exists log, s. split; [exact H|]. split; [reflexivity|].
  split; [|split; [|split; [|reflexivity]]].
  - left. eexists [_], _, [_; _]. split; [reflexivity|]. split; [eexists _, _; split; [reflexivity|vm_compute; discriminate]|].
    intros e' [<-|[<-|[]]] v' (? & ? & V & _); discriminate V.
  - left. eexists [_], _, [_; _]. split; [reflexivity|]. split; [eexists _, _; split; [reflexivity|split; vm_compute; discriminate]|].
    intros e' [<-|[<-|[]]] v' (? & ? & V & _); discriminate V.
  - left. eexists [_; _], _, [_]. split; [reflexivity|]. split; [reflexivity|]. intros e' [<-|[]] v' V; discriminate V.
Qed.
