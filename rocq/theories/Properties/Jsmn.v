(** C39: the JSON tokenizer.  Read with Spec/Json.v. *)
From Coq Require Import String ZArith List Bool Lia ZifyBool ZifyNat.
From Verif Require Import Base Spec.Json Model.Jsmn Proofs.Jsmn Proofs.JsmnSafe.
Import ListNotations.
Open Scope Z_scope.

(** ** C39 *)
(** For every document [js] of which [n] bytes are given and every array of
    [k] tokens: no read beyond the [n] bytes and no write beyond the array ([Ok]
    is not [UB]); at most [k] tokens; on success every token lies in the
    document, containers are closed by the bracket matching the one that opens
    them, and any two tokens are disjoint or the later lies in the earlier. *)
Theorem C39 : forall js n k, 0 <= n <= len js -> 0 <= k ->
  exists r q, jsmn_parse jsmn_init js n (Some k) = Ok (r, q) /\ len (p_toks q) <= k /\ 0 <= p_pos q <= n
    /\ (In r [JSMN_ERROR_NOMEM; JSMN_ERROR_INVAL; JSMN_ERROR_PART]
        \/ (r = len (p_toks q) /\ Forall (placed (firstn (Z.to_nat n) js)) (p_toks q) /\ ForallOrdPairs before_or_around (p_toks q))).
Proof. exact parse_outcome. Qed.
Print Assumptions C39.

(** The tokens of a JSON text are exactly its values, in order, if they fit. *)
Theorem C39_exact : forall w1 v w2 k, ws w1 -> valid v -> ws w2 -> 0 <= k ->
  let s := w1 ++ text v ++ w2 in
  let ts := tokens v (len w1) in
  (len ts <= k -> exists sup, jsmn_parse jsmn_init s (len s) (Some k) = Ok (len ts, {| p_pos := len s; p_super := sup; p_toks := ts |}))
  /\ (k < len ts -> exists q, jsmn_parse jsmn_init s (len s) (Some k) = Ok (JSMN_ERROR_NOMEM, q)).
Proof. exact parse_json. Qed.
Print Assumptions C39_exact.

(** Counting (no token array) gives the number parsing gives. *)
Theorem C39_count : forall js n k r q, jsmn_parse jsmn_init js n (Some k) = Ok (r, q) -> 0 <= r ->
  exists q', jsmn_parse jsmn_init js n None = Ok (r, q').
Proof. exact parse_count. Qed.
Print Assumptions C39_count.

(** The tokenizer is lenient: it takes some texts that are no JSON. *)
Example lenient : exists q, jsmn_parse jsmn_init (str "{:,,""a""[]}") 10 (Some 9) = Ok (3, q).
Proof. eexists. vm_compute. reflexivity. Qed.

(** ** Instances *)
Definition sample : json :=
  JObj [32] (MCons [] (str "a") [] [32] (JArr [] (ICons [] (JPrim (str "-1.5")) [] (ICons [32] (JObj [10] MNil) [] INil))) []
            (MCons [10] (str "ké\n") [32] [] (JStr (str "v\""")) [] MNil)).
Example sample_text : text sample = str "{ ""a"": [-1.5, {" ++ [10] ++ str "}]," ++ [10] ++ str """ké\n"" :""v\""""}".
Proof. reflexivity. Qed.
Lemma sample_valid : valid sample.
Proof.
  assert (Bp : forall c t, c <> 0 -> c <> 34 -> c <> 92 -> body t -> body (c :: t)) by (intros; now constructor).
  cbn [valid valid_items valid_members sample]. unfold ws.
  repeat match goal with
  | |- _ /\ _ => split
  | |- True => exact Logic.I
  | |- Forall _ [] => constructor
  | |- Forall (fun c => In c [9; 10; 13; 32]) _ => repeat constructor; cbn; tauto
  | |- Forall prim_char _ => repeat constructor; first [left; reflexivity | right; cbn; tauto]
  | |- str _ <> [] => discriminate
  | |- body (92 :: 117 :: _) => apply body_unicode; try reflexivity
  | |- body (92 :: _) => apply body_escape; [cbn; tauto|]
  | |- body (_ :: _) => apply Bp; [lia|lia|lia|]
  | |- body [] => constructor
  | |- body (str _) => cbv
  end.
Qed.
Example sample_tokens : exists sup, jsmn_parse jsmn_init (text sample) (len (text sample)) (Some 7) =
  Ok (7, {| p_pos := len (text sample); p_super := sup; p_toks := tokens sample 0 |}).
Proof.
  destruct (C39_exact [] sample [] 7 ltac:(constructor) sample_valid ltac:(constructor) ltac:(lia)) as [E _].
  cbn [Datatypes.app] in E. rewrite app_nil_r in E. apply E. vm_compute. discriminate.
Qed.
Example sample_seven : len (tokens sample 0) = 7.
Proof. reflexivity. Qed.
Example sample_fails : exists q, jsmn_parse jsmn_init (text sample) (len (text sample)) (Some 6) = Ok (JSMN_ERROR_NOMEM, q).
Proof. eexists. vm_compute. reflexivity. Qed.
Example unclosed : exists q, jsmn_parse jsmn_init (str "[1,2") 4 (Some 6) = Ok (JSMN_ERROR_PART, q).
Proof. eexists. vm_compute. reflexivity. Qed.
Example mismatched : exists q, jsmn_parse jsmn_init (str "[1,2}") 5 (Some 6) = Ok (JSMN_ERROR_INVAL, q).
Proof. eexists. vm_compute. reflexivity. Qed.
