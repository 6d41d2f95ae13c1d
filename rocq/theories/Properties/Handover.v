(** C79: handing the CA certificate of a voucher to the application.  Read with
    Spec/Handover.v and Spec/Voucher.v. *)
From Coq Require Import String ZArith List Bool Lia ZifyBool ZifyNat.
From Verif Require Import Base Spec.Base64 Spec.Json Spec.Voucher Model.CLib Model.EstErr Model.AuthHdr Model.Jsmn Model.Voucher Model.Handover
  Spec.Handover Proofs.Handover.
Import ListNotations.
Open Scope Z_scope.

Section S.
(** OpenSSL's part and the check of the certificates (C35). *)
Variable pkcs7 : Type.
Variable d2i_PKCS7 : bytes -> option pkcs7.
Variable PKCS7_verify : pkcs7 -> Z.
Variable pkcs7_data : pkcs7 -> bytes.
Variable verify_cacert_resp : bytes -> est_error * bytes.
Variable trust_store : bool.
Notation do_calls := (do_calls pkcs7 d2i_PKCS7 PKCS7_verify pkcs7_data verify_cacert_resp trust_store).
Notation pins := (pins d2i_PKCS7 PKCS7_verify pkcs7_data verify_cacert_resp).

(** A context that has not processed a voucher yet. *)
Definition unused (ctx : option bctx) : Prop := forall c, ctx = Some c -> v_cacert (b_v c) = None.
Lemma unused_stores : forall ctx, unused ctx -> stores ctx = None.
Proof. intros [c|] U; [exact (U c eq_refl)|reflexivity]. Qed.

(** Whatever the application called before: a copy that succeeds gives the
    certificates the voucher of the last successful request pins, all of them
    and nothing else, if they were not copied since.  If they were it gives as
    many zero octets, which is what is missing for the full claim (there
    should be nothing to copy then; [C79_refuted]). *)
Theorem C79_partial : forall ctx ks ctx' before old new after, unused ctx -> Forall usual ks ->
  do_calls ctx ks = Ok (ctx', before ++ Handed EST_ERR_NONE old new :: after) ->
  exists earlier l did mid t m, before = earlier ++ Asked EST_ERR_NONE l did :: mid /\ Forall (fun e => ~ granted e) mid /\ pins did t
    /\ old = Some m /\ len t <= len m
    /\ ((Forall (fun e => ~ handed e) mid /\ new = Some (overwritten m t)) \/ (Exists handed mid /\ new = Some (overwritten m (repeat 0 (length t))))).
Proof. intros ctx ks ctx' before old new after U. exact (handed_only _ _ _ _ _ _ _ _ _ _ _ _ _ (unused_stores _ U)). Qed.

(** After a successful request and no other, the first copy into memory that
    is large enough succeeds and gives the certificates pinned. *)
Theorem C79_available : forall ctx ks ctx' earlier l did mid t m, unused ctx -> Forall usual ks ->
  do_calls ctx ks = Ok (ctx', earlier ++ Asked EST_ERR_NONE l did :: mid) -> Forall (fun e => ~ asked e) mid -> Forall (fun e => ~ handed e) mid ->
  pins did t -> len t <= len m ->
  exists ctx'', do_calls ctx (ks ++ [Hand (Some m)])
    = Ok (ctx'', (earlier ++ Asked EST_ERR_NONE l did :: mid) ++ [Handed EST_ERR_NONE (Some m) (Some (overwritten m t))]).
Proof. intros ctx ks ctx' earlier l did mid t m U Us H F Fh P L. exact (proj2 (handed_after _ _ _ _ _ _ _ _ _ _ _ _ _ _ _ (unused_stores _ U) Us H F P) L Fh). Qed.

(** A copy that is refused leaves the application's memory alone. *)
Theorem C79_refused : forall ctx ks ctx' before e old new after, e <> EST_ERR_NONE ->
  do_calls ctx ks = Ok (ctx', before ++ Handed e old new :: after) -> new = old.
Proof. exact (refused_untouched _ _ _ _ _ _). Qed.

(** The length reported with a voucher is 0, always; an application that
    takes it at its word has its memory overwritten. *)
Theorem C79_length_refuted : forall ctx ks ctx' earlier n did, unused ctx -> Forall usual ks ->
  do_calls ctx ks = Ok (ctx', earlier ++ [Asked EST_ERR_NONE (Some n) did]) ->
  n = 0 /\ forall t m, pins did t -> t <> [] -> len m = n -> do_calls ctx (ks ++ [Hand (Some m)]) = UB.
Proof.
  intros ctx ks ctx' earlier n did U Us H. apply unused_stores in U.
  assert (N : n = 0) by (pose proof (length_zero _ _ _ _ _ _ _ _ _ _ _ _ _ U Us H); congruence).
  split; [exact N|]. intros t m P Ne L. apply (handed_after _ _ _ _ _ _ _ _ _ _ _ _ _ _ m U Us H (Forall_nil _) P).
  rewrite L, N. destruct t as [|x t]; [now contradiction Ne|]. unfold len. cbn [length]. lia.
Qed.
End S.
Print Assumptions C79_partial.
Print Assumptions C79_available.
Print Assumptions C79_refused.
Print Assumptions C79_length_refuted.

(** ** Instances: every PKCS #7 holds its document, signatures verify, every
    certificate checks. *)
Notation application := (do_calls bytes Some (fun _ => 1) (fun d => d) (fun b => (EST_ERR_NONE, b)) true).
Notation pinned := (pins (pkcs7 := bytes) Some (fun _ => 1) (fun d => d) (fun b => (EST_ERR_NONE, b))).
Definition q (s : string) : bytes := [34] ++ str s ++ [34].
Definition good_voucher : bytes :=
  str "{" ++ q "serial-number" ++ str ":" ++ q "DEV1" ++ str "," ++ q "pinned-domain-cert" ++ str ":" ++ q "AAAA" ++ str "}".
Definition new_client : bctx := {| b_initialized := true; b_brski := true; b_v := {| v_mode := AUTH_NONE; v_delay := 0; v_voucher := []; v_cacert := None |} |}.
Definition ask_with (x : est_error * bytes) : call :=
  Ask {| a_serial := Some (str "DEV1"); a_nb := repeat 0 34; a_sb := repeat 0 66; a_cb := repeat 0 (Z.to_nat 8192); a_nonce1 := Some (repeat 7 16); a_nonce2 := None;
         a_xs := [{| x_connect := EST_ERR_NONE; x_cert := EST_ERR_NONE; x_reply := fst x; x_voucher := snd x; x_mode := AUTH_NONE; x_delay := 0 |}] |} (Some 99).
Definition good_ask : call := ask_with (EST_ERR_NONE, good_voucher).
Definition bad_ask : call := ask_with (EST_ERR_HTTP_NOT_FOUND, []).
Definition good_did : list step :=
  [Sent (str "07070707070707070707070707070707" ++ [0])
     {| x_connect := EST_ERR_NONE; x_cert := EST_ERR_NONE; x_reply := EST_ERR_NONE; x_voucher := good_voucher; x_mode := AUTH_NONE; x_delay := 0 |}].
Definition memory : bytes := [1; 2; 3; 4; 5; 6].

Example fresh_client : unused (Some new_client).
Proof. intros c E. injection E as <-. reflexivity. Qed.
Example usual_calls : Forall usual [Hand (Some memory); good_ask; bad_ask; Hand (Some memory); Hand (Some memory)].
Proof.
  assert (Ub : forall x, usual (ask_with x)).
  { intro x. cbn. split; [|split; [reflexivity|split; [reflexivity|split; [reflexivity|split]]]].
    - intros s E. injection E as <-. intro K. cbv in K. repeat destruct K as [K|K]; congruence.
    - intros r E. injection E as <-. split; [|reflexivity]. unfold all_bytes, is_byte. repeat constructor; lia.
    - discriminate. }
  apply Forall_forall. intros k [<-|[<-|[<-|[<-|[<-|[]]]]]]; try exact Logic.I; apply Ub.
Qed.
Example good_pins : pinned good_did (str "AAAA").
Proof.
  exists [], (str "07070707070707070707070707070707" ++ [0]), {| x_connect := EST_ERR_NONE; x_cert := EST_ERR_NONE; x_reply := EST_ERR_NONE; x_voucher := good_voucher; x_mode := AUTH_NONE; x_delay := 0 |}, good_voucher.
  destruct (jsmn_parse jsmn_init good_voucher (len good_voucher) (Some 100)) as [[r pq]|] eqn:J; [|vm_compute in J; discriminate].
  assert (Er : r = len (p_toks pq)) by (vm_compute in J; injection J as <- <-; reflexivity).
  exists pq, (str "AAAA"). split; [reflexivity|]. split; [reflexivity|]. split; [reflexivity|]. split; [discriminate|]. split; [now rewrite <- Er|].
  split; [|reflexivity]. vm_compute in J. injection J as <- <-. vm_compute. reflexivity.
Qed.

(** Nothing to copy; a voucher; a request that fails; a copy; and another one,
    which is told of success although there is nothing left, and gets zeros. *)
Theorem C79_refuted : exists ks ctx', ks = [Hand (Some memory); good_ask; bad_ask; Hand (Some memory); Hand (Some memory)]
  /\ application (Some new_client) ks = Ok (ctx',
       [Handed EST_ERR_NO_CERT (Some memory) (Some memory);
        Asked EST_ERR_NONE (Some 0) good_did;
        Asked EST_ERR_HTTP_NOT_FOUND (Some 99)
          [Sent (str "07070707070707070707070707070707" ++ [0]) {| x_connect := EST_ERR_NONE; x_cert := EST_ERR_NONE; x_reply := EST_ERR_HTTP_NOT_FOUND; x_voucher := []; x_mode := AUTH_NONE; x_delay := 0 |}];
        Handed EST_ERR_NONE (Some memory) (Some (str "AAAA" ++ [5; 6]));
        Handed EST_ERR_NONE (Some memory) (Some [0; 0; 0; 0; 5; 6])]).
Proof. eexists _, _. split; [reflexivity|]. vm_compute. reflexivity. Qed.
Print Assumptions C79_refuted.
