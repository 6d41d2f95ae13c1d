(** Digest authentication: client and server agree; which headers are safe. *)
From Coq Require Import String ZArith List Bool Lia ZifyBool ZifyNat.
From Verif Require Import Base Spec.Base64 Spec.Http Spec.Auth Model.CLib Model.Codec Model.HttpServer Model.AuthHdr
  Proofs.Codec Proofs.HttpParse Proofs.HttpRender Proofs.AuthHdr.
Import ListNotations.
Open Scope Z_scope.
Local Opaque Z.of_nat Z.to_nat.

(** ** Walking over the header a client sends *)
Lemma q_split_plain : forall v t, ~ In 34 v -> last v 0 <> 92 -> q_split (v ++ 34 :: t) = (v, Some t).
Proof.
  assert (G : forall n v t, (length v <= n)%nat -> ~ In 34 v -> last v 0 <> 92 ->
            q_split (v ++ 34 :: t) = (v, Some t)).
  { induction n as [|n IH]; intros v t Hn Hq Hl.
    - destruct v; [reflexivity|cbn in Hn; lia].
    - destruct v as [|c v]; [reflexivity|].
      assert (Hc : c <> 34) by (intro; subst; apply Hq; now left).
      assert (Hq' : ~ In 34 v) by (intro; apply Hq; now right).
      destruct v as [|d v].
      + assert (c <> 92) by (intro; subst; apply Hl; reflexivity).
        cbn [app q_split]. replace (c =? 34) with false by lia. replace (c =? 92) with false by lia. reflexivity.
      + assert (Hl' : last (d :: v) 0 <> 92) by exact Hl.
        assert (E : q_split ((d :: v) ++ 34 :: t) = (d :: v, Some t)).
        { apply IH; [cbn [length] in *; lia|assumption|assumption]. }
        assert (Hd : d <> 34) by (intro; subst; apply Hq'; now left).
        change ((c :: d :: v) ++ 34 :: t) with (c :: ((d :: v) ++ 34 :: t)).
        cbn [q_split]. replace (c =? 34) with false by lia.
        rewrite E. cbn [fst snd]. destruct (c =? 92) eqn:E2; [|reflexivity].
        cbn [app]. replace (d =? 34) with false by lia. replace c with 92 by lia. reflexivity. }
  intros v t. apply (G (length v)). lia.
Qed.

Lemma until_lit : forall n t, ~ In 61 n -> until (str "=") (n ++ 61 :: t) = n.
Proof.
  intros n t H. unfold until. rewrite take_while_app_all.
  - cbn [take_while]. change (negb (memb 61 (str "="))) with false. cbv iota. apply app_nil_r.
  - apply Forall_forall. intros x Hx. change (str "=") with [61]. cbn [memb existsb].
    destruct (x =? 61) eqn:E; [|reflexivity]. exfalso. apply H. replace 61 with x by lia. assumption.
Qed.
Lemma past_lit : forall n c t, ~ In 61 n -> c <> 32 -> past (str "=") (n ++ 61 :: c :: t) = c :: t.
Proof.
  intros n c t H Hc. unfold past. rewrite drop_while_app_all.
  - cbn [drop_while]. change (negb (memb 61 (str "="))) with false. cbv iota.
    cbn [drop_while]. change (memb c [32]) with ((c =? 32) || false). replace (c =? 32) with false by lia. reflexivity.
  - apply Forall_forall. intros x Hx. change (str "=") with [61]. cbn [memb existsb].
    destruct (x =? 61) eqn:E; [|reflexivity]. exfalso. apply H. replace 61 with x by lia. assumption.
Qed.

(** A quoted value followed by a comma, or last. *)
Lemma pair_quoted : forall n v t, ~ In 61 n -> plain v ->
  digest_pair (n ++ str "=" ++ quote v ++ 44 :: t) = (n, v, t).
Proof.
  intros n v t Hn [Hq Hl]. unfold quote. change (str "=") with [61].
  replace (n ++ [61] ++ ([34] ++ v ++ [34]) ++ 44 :: t) with (n ++ 61 :: 34 :: (v ++ 34 :: 44 :: t))
    by (cbn [app]; rewrite <- app_assoc; reflexivity).
  unfold digest_pair. rewrite until_lit, past_lit by (assumption || lia).
  change (34 =? 34) with true. cbv iota zeta. rewrite q_split_plain by assumption. cbn [fst snd drop_while].
  change (memb 44 [32]) with false. cbv iota. change (44 =? 44) with true. reflexivity.
Qed.
Lemma pair_last : forall n v, ~ In 61 n -> plain v ->
  digest_pair (n ++ str "=" ++ quote v) = (n, v, []).
Proof.
  intros n v Hn [Hq Hl]. unfold quote. change (str "=") with [61].
  replace (n ++ [61] ++ ([34] ++ v ++ [34])) with (n ++ 61 :: 34 :: (v ++ 34 :: []))
    by (cbn [app]; reflexivity).
  unfold digest_pair. rewrite until_lit, past_lit by (assumption || lia).
  change (34 =? 34) with true. cbv iota zeta. rewrite q_split_plain by assumption. reflexivity.
Qed.

Lemma pairs_step : forall f cap T n0 n v s rest,
  isspace n0 = false -> digest_pair s = (n0 :: n, v, rest) -> hd 0 s = n0 -> s <> [] -> T - len s + 8 <= cap ->
  digest_pairs (S f) cap T s = l <- digest_pairs f cap T rest ;; Ok ((n0 :: n, v) :: l).
Proof.
  intros f cap T n0 n v s rest Hs Hp Hh Hne Hc. cbn [digest_pairs].
  assert (E : drop_while isspace s = s).
  { destruct s as [|c s]; [congruence|]. cbn in Hh. subst c. cbn [drop_while]. rewrite Hs. reflexivity. }
  rewrite E, Hp. replace (cap <? T - len s + 8) with false by lia. reflexivity.
Qed.
Lemma pairs_space : forall f cap T s, digest_pairs f cap T (32 :: s) = digest_pairs f cap T s.
Proof. intros [|f] cap T s; [reflexivity|]. cbn [digest_pairs drop_while]. change (isspace 32) with true. reflexivity. Qed.

Definition sent_params (user realm nonce uri cnonce response : bytes) : list (bytes * bytes) :=
  [(str "username", user); (str "realm", realm); (str "nonce", nonce); (str "uri", uri); (str "cnonce", cnonce);
   (str "nc", str "00000001"); (str "qop", str "auth"); (str "response", response)].

Lemma digest_rest_len : forall user realm nonce uri cnonce response,
  len (digest_rest user realm nonce uri cnonce response)
  = 88 + len user + len realm + len nonce + len uri + len cnonce + len response.
Proof.
  intros. unfold digest_rest, quote. rewrite !len_app.
  repeat match goal with |- context [len (str ?s)] => let v := eval vm_compute in (len (str s)) in change (len (str s)) with v end.
  change (len [34]) with 1. lia.
Qed.

Ltac nolit := intro; cbn in *; intuition discriminate.

Lemma digest_walk : forall user realm nonce uri cnonce response,
  plain user -> plain realm -> plain nonce -> plain uri -> plain cnonce -> plain response -> 28 <= len response ->
  len (digest_rest user realm nonce uri cnonce response) <= 383 ->
  digest_params (digest_rest user realm nonce uri cnonce response) = Ok (sent_params user realm nonce uri cnonce response).
Proof.
  intros user realm nonce uri cnonce response H1 H2 H3 H4 H5 H6 Hr Hl. unfold digest_params.
  set (T := len (digest_rest user realm nonce uri cnonce response)) in *.
  assert (HT : T = 88 + len user + len realm + len nonce + len uri + len cnonce + len response) by apply digest_rest_len.
  assert (Hf : exists g, S (length (digest_rest user realm nonce uri cnonce response)) = (9 + g)%nat).
  { exists (Z.to_nat (T - 8)). unfold len in *. unfold T in *. lia. }
  destruct Hf as [g ->]. clearbody T.
  pose proof (len_nonneg _ user). pose proof (len_nonneg _ realm). pose proof (len_nonneg _ nonce).
  pose proof (len_nonneg _ uri). pose proof (len_nonneg _ cnonce).
  unfold digest_rest.
  assert (Hlast : forall k, digest_pairs (S (S k)) 384 T (str "response=" ++ quote response) = Ok [(str "response", response)]).
  { intro k. rewrite (pairs_step _ _ _ 114 (str "esponse") response _ []);
      [|reflexivity|exact (pair_last (str "response") response ltac:(nolit) H6)|reflexivity|discriminate|].
    - reflexivity.
    - unfold quote. rewrite !len_app. change (len (str "response=")) with 9. change (len [34]) with 1. lia. }
  assert (Hqop : forall k, digest_pairs (S (S (S k))) 384 T (str "qop=" ++ quote (str "auth") ++ str ", response=" ++ quote response)
                 = Ok [(str "qop", str "auth"); (str "response", response)]).
  { intro k. rewrite (pairs_step _ _ _ 113 (str "op") (str "auth") _ (32 :: str "response=" ++ quote response));
      [|reflexivity|exact (pair_quoted (str "qop") (str "auth") (32 :: str "response=" ++ quote response) ltac:(nolit) ltac:(split; [nolit|discriminate]))|reflexivity|discriminate|].
    - rewrite pairs_space, Hlast. reflexivity.
    - unfold quote. rewrite !len_app. change (len (str "qop=")) with 4. change (len (str "auth")) with 4.
      change (len (str ", response=")) with 11. change (len [34]) with 1. lia. }
  assert (Hnc : forall k, digest_pairs (S (S (S (S k)))) 384 T (str "nc=00000001, qop=" ++ quote (str "auth") ++ str ", response=" ++ quote response)
                 = Ok [(str "nc", str "00000001"); (str "qop", str "auth"); (str "response", response)]).
  { intro k. rewrite (pairs_step _ _ _ 110 (str "c") (str "00000001") _ (str "qop=" ++ quote (str "auth") ++ str ", response=" ++ quote response));
      [|reflexivity|reflexivity|reflexivity|discriminate|].
    - rewrite Hqop. reflexivity.
    - unfold quote. rewrite !len_app. change (len (str "nc=00000001, qop=")) with 17. change (len (str "auth")) with 4.
      change (len (str ", response=")) with 11. change (len [34]) with 1. lia. }
  assert (Htail : forall k n0 n v rest ps, ~ In 61 (n0 :: n) -> isspace n0 = false -> plain v ->
            len (n0 :: n) + 3 + len v + 2 + len rest <= T - 0 ->
            T - (len (n0 :: n) + 3 + len v + 2 + len rest) + 8 <= 384 ->
            digest_pairs k 384 T rest = Ok ps ->
            digest_pairs (S k) 384 T ((n0 :: n) ++ str "=" ++ quote v ++ str ", " ++ rest) = Ok ((n0 :: n, v) :: ps)).
  { intros k n0 n v rest ps Hn Hs Hv _ Hroom Hrest.
    rewrite (pairs_step _ _ _ n0 n v _ (32 :: rest)); [|assumption| |reflexivity|discriminate|].
    - rewrite pairs_space, Hrest. reflexivity.
    - exact (pair_quoted (n0 :: n) v (32 :: rest) Hn Hv).
    - unfold quote. rewrite !len_app. change (len (str "=")) with 1. change (len (str ", ")) with 2. change (len [34]) with 1. lia. }
  set (R1 := str "nc=00000001, qop=" ++ quote (str "auth") ++ str ", response=" ++ quote response) in *.
  assert (LR1 : len R1 = 36 + len response).
  { unfold R1, quote. rewrite !len_app. change (len (str "nc=00000001, qop=")) with 17. change (len (str "auth")) with 4.
    change (len (str ", response=")) with 11. change (len [34]) with 1. lia. }
  set (R2 := str "cnonce=" ++ quote cnonce ++ str ", " ++ R1).
  assert (LR2 : len R2 = 11 + len cnonce + len R1).
  { unfold R2, quote. rewrite !len_app. change (len (str "cnonce=")) with 7. change (len (str ", ")) with 2. change (len [34]) with 1. lia. }
  set (R3 := str "uri=" ++ quote uri ++ str ", " ++ R2).
  assert (LR3 : len R3 = 8 + len uri + len R2).
  { unfold R3, quote. rewrite !len_app. change (len (str "uri=")) with 4. change (len (str ", ")) with 2. change (len [34]) with 1. lia. }
  set (R4 := str "nonce=" ++ quote nonce ++ str ", " ++ R3).
  assert (LR4 : len R4 = 10 + len nonce + len R3).
  { unfold R4, quote. rewrite !len_app. change (len (str "nonce=")) with 6. change (len (str ", ")) with 2. change (len [34]) with 1. lia. }
  set (R5 := str "realm=" ++ quote realm ++ str ", " ++ R4).
  assert (LR5 : len R5 = 10 + len realm + len R4).
  { unfold R5, quote. rewrite !len_app. change (len (str "realm=")) with 6. change (len (str ", ")) with 2. change (len [34]) with 1. lia. }
  change (digest_pairs (9 + g) 384 T ((str "username") ++ str "=" ++ quote user ++ str ", " ++ R5)
          = Ok (sent_params user realm nonce uri cnonce response)).
  unfold sent_params.
  pose proof (len_nonneg _ R1). pose proof (len_nonneg _ R2).
  apply (Htail (8 + g)%nat 117 (str "sername")); [nolit|reflexivity|assumption| | |];
    [change (len (117 :: str "sername")) with 8; lia|change (len (117 :: str "sername")) with 8; lia|].
  apply (Htail (7 + g)%nat 114 (str "ealm")); [nolit|reflexivity|assumption| | |];
    [change (len (114 :: str "ealm")) with 5; lia|change (len (114 :: str "ealm")) with 5; lia|].
  apply (Htail (6 + g)%nat 110 (str "once")); [nolit|reflexivity|assumption| | |];
    [change (len (110 :: str "once")) with 5; lia|change (len (110 :: str "once")) with 5; lia|].
  apply (Htail (5 + g)%nat 117 (str "ri")); [nolit|reflexivity|assumption| | |];
    [change (len (117 :: str "ri")) with 3; lia|change (len (117 :: str "ri")) with 3; lia|].
  apply (Htail (4 + g)%nat 99 (str "nonce")); [nolit|reflexivity|assumption| | |];
    [change (len (99 :: str "nonce")) with 6; lia|change (len (99 :: str "nonce")) with 6; lia|].
  apply Hnc.
Qed.

(** ** Hexadecimal text *)
Lemma hex_chars : forall d, all_bytes d -> Forall (fun c => 48 <= c <= 57 \/ 97 <= c <= 102) (hex_string d).
Proof.
  induction d as [|b d IH]; intros H; [constructor|]. inversion H; subst. cbn [hex_string flat_map].
  assert (G : forall v, 0 <= v < 16 -> 48 <= hex_digit v <= 57 \/ 97 <= hex_digit v <= 102).
  { intros v Hv. assert (Hc : v=0\/v=1\/v=2\/v=3\/v=4\/v=5\/v=6\/v=7\/v=8\/v=9\/v=10\/v=11\/v=12\/v=13\/v=14\/v=15) by lia.
    repeat (destruct Hc as [->|Hc]; [match goal with |- context [hex_digit ?d] =>
      let x := eval vm_compute in (hex_digit d) in change (hex_digit d) with x end; lia|]).
    subst. change (hex_digit 15) with 102. lia. }
  unfold is_byte in *. constructor; [apply G; Z.to_euclidean_division_equations; lia|].
  constructor; [apply G; Z.to_euclidean_division_equations; lia|]. now apply IH.
Qed.
Lemma hex_len : forall d, len (hex_string d) = 2 * len d.
Proof. induction d as [|b d IH]; [reflexivity|]. cbn [hex_string flat_map app]. rewrite !len_cons. fold (hex_string d). lia. Qed.
Lemma hex_no_nul : forall d, all_bytes d -> no_nul (hex_string d).
Proof. intros d H Hi. pose proof (hex_chars d H) as F. rewrite Forall_forall in F. specialize (F 0 Hi). lia. Qed.
Lemma hex_plain : forall d, all_bytes d -> plain (hex_string d).
Proof.
  intros d H. pose proof (hex_chars d H) as F. rewrite Forall_forall in F. split.
  - intro Hi. specialize (F 34 Hi). lia.
  - destruct (hex_string d) as [|c t] eqn:E; [cbn; lia|]. rewrite <- E in *.
    assert (Hin : In (last (hex_string d) 0) (hex_string d)).
    { rewrite E. rewrite (app_removelast_last 0 (l := c :: t)) at 2 by discriminate.
      apply in_or_app. right. now left. }
    specialize (F _ Hin). lia.
Qed.
Lemma hex33_spec : forall d, all_bytes d -> len d = 16 -> hex33 d = Ok (hex_string d).
Proof.
  intros d H L. unfold hex33. change (repeat 0 33) with (repeat 0 33 ++ []).
  rewrite hex_exact by (assumption || (rewrite len_repeat; lia)). cbn [bind]. apply cstr_app_nul. now apply hex_no_nul.
Qed.

Section Digest.
Variable md5 : bytes -> bytes.
Hypothesis md5_len : forall x, len (md5 x) = 16.
Hypothesis md5_bytes : forall x, all_bytes (md5 x).

Lemma client_digest : forall user pwd uri realm s_nonce c_nonce,
  len user <= 255 -> len pwd <= 255 -> len uri <= 255 -> len realm <= 255 -> len s_nonce <= 64 -> len c_nonce <= 64 ->
  est_client_generate_auth_digest md5 user pwd uri realm s_nonce c_nonce =
  Ok (rfc2617_response md5 (rfc2617_ha1 md5 user realm pwd) (str "POST") uri s_nonce (str "00000001") c_nonce).
Proof.
  intros. unfold est_client_generate_auth_digest. rewrite !strndup_le by (assumption || (vm_compute; discriminate)).
  rewrite !hex33_spec by auto. cbn [bind]. rewrite hex33_spec by auto. reflexivity.
Qed.

Lemma server_digest : forall a ha1 uri nonce nc cnonce,
  ah_uri a = Some uri -> ah_nonce a = Some nonce -> ah_nc a = Some nc -> ah_cnonce a = Some cnonce ->
  len uri <= 255 -> len nonce <= 64 -> len nc <= 9 -> len cnonce <= 64 -> len ha1 = 32 ->
  est_server_generate_auth_digest md5 a ha1 = Ok (rfc2617_response md5 ha1 (str "POST") uri nonce nc cnonce).
Proof.
  intros a ha1 uri nonce nc cnonce E1 E2 E3 E4 H1 H2 H3 H4 H5. unfold est_server_generate_auth_digest.
  rewrite E1, E2, E3, E4. unfold opt_str. rewrite !strndup_le by assumption. rewrite hex33_spec by auto. cbn [bind].
  replace (len ha1 <? 31) with false by lia.
  assert (F : firstn 32 (ha1 ++ [0]) = ha1).
  { rewrite firstn_app. unfold len in H5. replace (32 - length ha1)%nat with 0%nat by lia.
    rewrite firstn_all2 by lia. apply app_nil_r. }
  rewrite F. rewrite hex33_spec by auto. reflexivity.
Qed.

Lemma client_digest_header : forall userid password realm s_nonce c rnd hdr uri user pwd,
  used_cred userid password c user pwd -> len userid <= 254 -> len user <= 255 -> len pwd <= 255 -> len realm <= 255 -> len s_nonce <= 64 ->
  len uri <= 255 -> len rnd = 8 -> all_bytes rnd -> len hdr <= 4100 ->
  let cnonce := hex_string rnd in
  let response := rfc2617_response md5 (rfc2617_ha1 md5 user realm pwd) (str "POST") uri s_nonce (str "00000001") cnonce in
  est_client_add_auth_hdr md5 AUTH_DIGEST userid password realm s_nonce c rnd hdr uri
  = Ok (hdr ++ render_header (str "Authorization", str "Digest " ++ digest_rest user realm s_nonce uri cnonce response)).
Proof.
  intros userid password realm s_nonce c rnd hdr uri user pwd Hc Hid Hu Hp Hr Hn Huri Hrl Hrb Hh cnonce response.
  unfold est_client_add_auth_hdr.
  assert (Ec : est_hex_to_str (repeat 0 65) 0 rnd = Ok (hex_string rnd ++ 0 :: repeat 0 48)).
  { change (repeat 0 65) with (repeat 0 17 ++ repeat 0 48). apply hex_exact; [assumption|]. rewrite len_repeat. lia. }
  rewrite Ec. cbn [bind]. rewrite cstr_app_nul by now apply hex_no_nul. cbn [bind].
  rewrite (client_cred_used _ _ _ _ _ Hc) by assumption. replace (255 <=? len userid) with false by lia.
  assert (Hcl : len cnonce = 16) by (unfold cnonce; rewrite hex_len; lia).
  rewrite client_digest by (assumption || (fold cnonce; lia)). cbn [bind]. fold cnonce. fold response.
  assert (Hres : len response = 32) by (unfold response, rfc2617_response; rewrite hex_len, md5_len; lia).
  rewrite snprintf_fits.
  - unfold render_header, digest_rest, quote. cbn [fst snd]. unfold CRLF. rewrite <- !app_assoc. reflexivity.
  - clearbody response cnonce. rewrite !len_app.
    repeat match goal with |- context [len (str ?s)] => let v := eval vm_compute in (len (str s)) in change (len (str s)) with v end.
    change (len [34]) with 1. change (len [13;10]) with 2. lia.
Qed.

Lemma client_digest_long : forall userid password realm s_nonce c rnd hdr uri, len userid = 255 -> len rnd = 8 -> all_bytes rnd ->
  est_client_add_auth_hdr md5 AUTH_DIGEST userid password realm s_nonce c rnd hdr uri = UB.
Proof.
  clear md5_len md5_bytes. intros userid password realm s_nonce c rnd hdr uri H Hr Hb. unfold est_client_add_auth_hdr.
  assert (Ec : est_hex_to_str (repeat 0 65) 0 rnd = Ok (hex_string rnd ++ 0 :: repeat 0 48)).
  { change (repeat 0 65) with (repeat 0 17 ++ repeat 0 48). apply hex_exact; [assumption|]. rewrite len_repeat. lia. }
  rewrite Ec. cbn [bind]. rewrite cstr_app_nul by now apply hex_no_nul. cbn [bind].
  destruct (client_cred userid password c). now replace (255 <=? len userid) with true by lia.
Qed.

End Digest.

Ltac lits := match goal with |- Forall _ ?l => let l' := eval vm_compute in l in change l with l' end;
  repeat (apply Forall_cons; [lia|]); apply Forall_nil.
Lemma digest_header_value : forall user realm nonce uri cnonce response,
  Forall printable (user ++ realm ++ nonce ++ uri ++ cnonce ++ response) ->
  header_value (str "Digest " ++ digest_rest user realm nonce uri cnonce response).
Proof.
  intros user realm nonce uri cnonce response H. rewrite !Forall_app in H. destruct H as (H1 & H2 & H3 & H4 & H5 & H6).
  split; [|discriminate]. unfold digest_rest, quote. unfold printable in *.
  rewrite !Forall_app. repeat apply conj; first [assumption|lits].
Qed.

Lemma server_reads_digest : forall bio user realm nonce uri cnonce response uid,
  user <> [] ->
  plain user -> plain realm -> plain nonce -> plain uri -> plain cnonce -> plain response -> 28 <= len response ->
  no_nul user -> no_nul realm -> no_nul nonce -> no_nul uri -> no_nul cnonce -> no_nul response ->
  len user <= 255 -> len nonce <= 64 -> len uri <= 255 -> len cnonce <= 64 -> len response <= 64 ->
  len (digest_rest user realm nonce uri cnonce response) <= 383 ->
  mg_parse_auth_header bio AUTH_DIGEST (Some (str "Digest " ++ digest_rest user realm nonce uri cnonce response)) est_create_ah uid
  = Ok (HDR_GOOD,
        {| ah_mode := AUTH_DIGEST; ah_user := Some user; ah_pwd := None; ah_uri := Some uri; ah_cnonce := Some cnonce;
           ah_qop := Some (str "auth"); ah_nc := Some (str "00000001"); ah_nonce := Some nonce;
           ah_response := Some response; ah_token := None |},
        user ++ repeat 0 (Z.to_nat (256 - len user))).
Proof.
  intros bio user realm nonce uri cnonce response uid Hne P1 P2 P3 P4 P5 P6 Hr N1 N2 N3 N4 N5 N6 L1 L3 L4 L5 L6 LT.
  unfold mg_parse_auth_header. set (D := digest_rest user realm nonce uri cnonce response) in *.
  change (strncaseeq 7 (str "Digest " ++ D) (str "Digest ")) with true. cbv iota. cbn [mode_eqb negb].
  change (skipn 7 (str "Digest " ++ D)) with D.
  rewrite digest_short; [|unfold D, digest_rest, quote; rewrite !no_nul_app; repeat split; try assumption; nolit|lia].
  unfold D. rewrite digest_walk by assumption. clear D LT.
  assert (E : fold_left apply_param (sent_params user realm nonce uri cnonce response) (with_mode est_create_ah AUTH_DIGEST) =
    {| ah_mode := AUTH_DIGEST; ah_user := Some (strndup user 255); ah_pwd := None; ah_uri := Some (strndup uri 255); ah_cnonce := Some (strndup cnonce 64);
           ah_qop := Some (strndup (str "auth") 10); ah_nc := Some (strndup (str "00000001") 9); ah_nonce := Some (strndup nonce 64);
           ah_response := Some (strndup response 64); ah_token := None |}) by reflexivity.
  rewrite E. clear E. rewrite !strndup_le by (assumption || (vm_compute; discriminate)).
  cbn [bind ah_mode ah_uri ah_nonce ah_nc ah_cnonce ah_user mode_eqb is_some andb negb]. cbv iota.
  rewrite strncpy_fits by lia. do 2 f_equal.
  replace (Z.to_nat (256 - len user)) with (S (Z.to_nat (256 - len user - 1))) by lia. reflexivity.
Qed.

(** ** Safety *)
Lemma digest_pairs_safe : forall f cap T s, no_nul s -> (length s < f)%nat -> T + 7 <= cap ->
  exists ps, digest_pairs f cap T s = Ok ps.
Proof.
  induction f as [|f IH]; intros cap T s Hs Hf Hc; [lia|]. cbn [digest_pairs].
  set (s1 := drop_while isspace s).
  assert (Hs1 : no_nul s1) by now apply no_nul_drop.
  assert (Hl : len s1 <= len s).
  { unfold s1. rewrite <- (take_drop_while isspace s) at 2. rewrite len_app.
    pose proof (len_nonneg _ (take_while isspace s)). lia. }
  destruct (digest_pair s1) as [[n v] r] eqn:E. destruct (digest_pair_shrinks s1 n v r Hs1 E) as [H1 H2].
  destruct n as [|n0 n]; [eexists; reflexivity|]. rewrite len_cons in H1.
  pose proof (len_nonneg _ n). pose proof (len_nonneg _ r).
  replace (cap <? T - len s1 + 8) with false by lia.
  assert (length r < f)%nat by (unfold len in *; lia).
  destruct (IH cap T r H2 H3 Hc) as [ps ->]. eexists; reflexivity.
Qed.

Lemma finish_ok : forall a uid, exists r,
  (if mode_eqb (ah_mode a) AUTH_DIGEST
      && negb (is_some (ah_uri a) && is_some (ah_nonce a) && is_some (ah_nc a) && is_some (ah_cnonce a))
   then Ok (HDR_BAD, a, uid)
   else if mode_eqb (ah_mode a) AUTH_TOKEN then Ok (HDR_GOOD, a, uid)
   else match ah_user a with None => Ok (HDR_BAD, a, uid) | Some u => Ok (HDR_GOOD, a, strncpy_img u 256) end)
  = (Ok r : res (hdr_result * auth_hdr * bytes)).
Proof.
  intros. destruct (_ && _); [eexists; reflexivity|]. destruct (mode_eqb _ _); [eexists; reflexivity|].
  destruct (ah_user a); eexists; reflexivity.
Qed.

Lemma header_safe : forall bio cfg h a uid, b64_bio bio -> no_nul h ->
  (cfg = AUTH_DIGEST -> strncaseeq 7 h (str "Digest ") = true -> len h <= 384) ->
  is_ok (mg_parse_auth_header bio cfg (Some h) a uid).
Proof.
  intros bio cfg h a uid Hb Hn Hl. unfold mg_parse_auth_header.
  destruct (strncaseeq 7 h (str "Digest ")) eqn:Ed.
  - destruct (negb (mode_eqb cfg AUTH_DIGEST)) eqn:Em; [eexists; reflexivity|].
    assert (cfg = AUTH_DIGEST) by (destruct cfg; cbn in Em; congruence). subst cfg.
    specialize (Hl eq_refl eq_refl).
    assert (Hl' : len (skipn 7 h) <= 377).
    { unfold len in *. rewrite skipn_length. lia. }
    assert (Hn' : no_nul (skipn 7 h)).
    { intro Hi. apply Hn. rewrite <- (firstn_skipn 7 h). apply in_or_app. now right. }
    rewrite digest_short by (assumption || lia). unfold digest_params.
    destruct (digest_pairs_safe (S (length (skipn 7 h))) 384 (len (skipn 7 h)) (skipn 7 h) Hn' ltac:(lia) ltac:(lia)) as [ps ->].
    cbn [bind]. apply finish_ok.
  - destruct (strncaseeq 6 h (str "Basic ")).
    + destruct (negb (mode_eqb cfg AUTH_BASIC)); [eexists; reflexivity|].
      destruct (basic_ok bio (skipn 6 h) a Hb) as [a' ->]. cbn [bind]. apply finish_ok.
    + destruct (strncaseeq 7 h (str "Bearer ")); [|eexists; reflexivity].
      destruct (negb (mode_eqb cfg AUTH_TOKEN)); [eexists; reflexivity|].
      destruct (token_ok bio (skipn 6 h) a Hb) as [a' ->]. cbn [bind]. apply finish_ok.
Qed.

Lemma header_unsafe : forall bio h a uid, no_nul h -> strncaseeq 7 h (str "Digest ") = true -> 391 <= len h ->
  mg_parse_auth_header bio AUTH_DIGEST (Some h) a uid = UB.
Proof.
  intros bio h a uid Hn Hd Hl. unfold mg_parse_auth_header. rewrite Hd. cbn [mode_eqb negb].
  rewrite digest_long; [reflexivity| |].
  - intro Hi. apply Hn. rewrite <- (firstn_skipn 7 h). apply in_or_app. now right.
  - unfold len in *. rewrite skipn_length. lia.
Qed.

(** What a digest header is understood as. *)
Lemma header_digest_fields : forall bio rest uid ps, no_nul rest -> len rest < 384 -> digest_params rest = Ok ps ->
  exists a uid', mg_parse_auth_header bio AUTH_DIGEST (Some (str "Digest " ++ rest)) est_create_ah uid
    = Ok (match digest_value (str "username") ps, digest_value (str "uri") ps, digest_value (str "nonce") ps,
                digest_value (str "nc") ps, digest_value (str "cnonce") ps with
          | Some _, Some _, Some _, Some _, Some _ => HDR_GOOD
          | _, _, _, _, _ => HDR_BAD
          end, a, uid')
    /\ ah_mode a = AUTH_DIGEST /\ ah_user a = digest_value (str "username") ps
    /\ ah_uri a = digest_value (str "uri") ps /\ ah_nonce a = digest_value (str "nonce") ps
    /\ ah_nc a = digest_value (str "nc") ps /\ ah_cnonce a = digest_value (str "cnonce") ps
    /\ ah_response a = digest_value (str "response") ps /\ ah_qop a = digest_value (str "qop") ps.
Proof.
  intros bio rest uid ps Hn Hl Hp. unfold mg_parse_auth_header.
  change (strncaseeq 7 (str "Digest " ++ rest) (str "Digest ")) with true. cbv iota. cbn [mode_eqb negb].
  change (skipn 7 (str "Digest " ++ rest)) with rest. rewrite digest_short by assumption. rewrite Hp. cbn [bind].
  pose proof (apply_params_fields ps (with_mode est_create_ah AUTH_DIGEST)) as F. cbv zeta in F.
  set (r := fold_left apply_param ps (with_mode est_create_ah AUTH_DIGEST)) in *. clearbody r.
  decompose [and] F. clear F. cbn [with_mode est_create_ah ah_mode ah_user ah_uri ah_nonce ah_nc ah_cnonce ah_response ah_qop] in *.
  unfold orelse in *.
  repeat match goal with H : _ = match ?x with Some w => Some w | None => None end |- _ =>
    replace (match x with Some w => Some w | None => None end) with x in H by (destruct x; reflexivity) end.
  repeat match goal with H : _ r = _ |- _ => rewrite H end. cbn [mode_eqb andb].
  destruct (digest_value (str "username") ps), (digest_value (str "uri") ps), (digest_value (str "nonce") ps),
    (digest_value (str "nc") ps), (digest_value (str "cnonce") ps); cbn [is_some andb negb];
  exists r; eexists; (split; [reflexivity|]); repeat split; assumption.
Qed.
