(** Proofs about Model/Wipe.v. *)
From Coq Require Import String ZArith List Bool Lia ZifyBool ZifyNat.
From Verif Require Import Base Model.CLib Model.EstErr Model.Codec Model.AuthHdr Model.HttpServer Model.Wipe
  Spec.Base64 Spec.Wipe Proofs.Codec Proofs.AuthHdr.
Import ListNotations.
Open Scope Z_scope.

Lemma memzero_spec : forall b c, memzero (b ++ c) (len b) = Ok (zeros (len b) ++ c).
Proof.
  intros. unfold memzero, zeros, len. rewrite app_length.
  replace ((0 <=? Z.of_nat (length b)) && (Z.of_nat (length b) <=? Z.of_nat (length b + length c))) with true by lia.
  rewrite Nat2Z.id, skipn_app, skipn_all, Nat.sub_diag. reflexivity.
Qed.
Lemma memzero_all : forall b, memzero b (len b) = Ok (zeros (len b)).
Proof. intros. pose proof (memzero_spec b []) as H. rewrite !app_nil_r in H. exact H. Qed.

Lemma take_no_nul : forall s t, no_nul s -> take_while (fun c => negb (c =? 0)) (s ++ 0 :: t) = s.
Proof.
  induction s as [|c s IH]; intros t H; [reflexivity|]. cbn [app take_while].
  replace (c =? 0) with false by (assert (c <> 0) by (intros ->; apply H; now left); lia).
  cbn. f_equal. apply IH. intros X. apply H. now right.
Qed.
Lemma take_no_nul_end : forall s, no_nul s -> take_while (fun c => negb (c =? 0)) s = s.
Proof.
  induction s as [|c s IH]; intros H; [reflexivity|]. cbn [take_while].
  replace (c =? 0) with false by (assert (c <> 0) by (intros ->; apply H; now left); lia).
  cbn. f_equal. apply IH. intros X. apply H. now right.
Qed.
Lemma no_nul_firstn : forall n s, no_nul s -> no_nul (firstn n s).
Proof. intros n s H X. apply H. rewrite <- (firstn_skipn n s). apply in_or_app. now left. Qed.

(** The length found is that of the string, capped. *)
Lemma strnlen_spec : forall s t n, no_nul s -> 0 <= n -> strnlen (s ++ 0 :: t) n = Ok (Z.min (len s) n).
Proof.
  intros s t n H Hn. unfold strnlen. destruct (Z_lt_dec (len s) n) as [L|L].
  - assert (E : firstn (Z.to_nat n) (s ++ 0 :: t) = s ++ 0 :: firstn (Z.to_nat n - length s - 1) t).
    { rewrite firstn_app. rewrite firstn_all2 by (unfold len in L; lia).
      destruct (Z.to_nat n - length s)%nat as [|k] eqn:K; [unfold len in L; lia|].
      cbn [firstn]. now rewrite Nat.sub_succ, Nat.sub_0_r. }
    rewrite E, take_no_nul by exact H.
    replace (len s =? len (s ++ 0 :: t)) with false by (unfold len; rewrite app_length; cbn [length]; lia).
    cbn [andb]. f_equal. lia.
  - rewrite firstn_app. replace (Z.to_nat n - length s)%nat with 0%nat by (unfold len in L; lia).
    rewrite app_nil_r, take_no_nul_end by now apply no_nul_firstn.
    assert (E : len (firstn (Z.to_nat n) s) = n) by (unfold len in *; rewrite firstn_length; lia).
    rewrite E. replace (len (s ++ 0 :: t) <? n) with false by (unfold len in *; rewrite app_length; cbn [length]; lia).
    rewrite andb_false_r. f_equal. lia.
Qed.

Lemma wipe_spec : forall o max s t, no_nul s -> 0 <= max ->
  wipe_string o max (Some (s ++ 0 :: t)) = Ok [(o, zeros (Z.min (len s) max) ++ skipn (Z.to_nat max) s ++ 0 :: t)].
Proof.
  intros o max s t H Hn. unfold wipe_string. rewrite strnlen_spec by assumption. cbn [bind].
  set (a := firstn (Z.to_nat max) s). set (b := skipn (Z.to_nat max) s).
  replace (Z.min (len s) max) with (len a) by (unfold a, len; rewrite firstn_length; lia).
  replace (s ++ 0 :: t) with (a ++ (b ++ 0 :: t)) by (unfold a, b; rewrite app_assoc, firstn_skipn; reflexivity).
  rewrite memzero_spec. reflexivity.
Qed.
Lemma wipe_short : forall o max s t, no_nul s -> len s <= max ->
  wipe_string o max (Some (s ++ 0 :: t)) = Ok [(o, zeros (len s) ++ 0 :: t)].
Proof.
  intros. rewrite wipe_spec by (try assumption; pose proof (Zle_0_nat (length s)); unfold len in *; lia).
  rewrite Z.min_l by lia. rewrite skipn_all2 by (unfold len in *; lia). reflexivity.
Qed.
Lemma zeros_snoc : forall n, 0 <= n -> zeros n ++ [0] = zeros (n + 1).
Proof.
  intros. unfold zeros. replace (Z.to_nat (n + 1)) with (Z.to_nat n + 1)%nat by lia. rewrite repeat_app. reflexivity.
Qed.

(** Secrets taken from a header fit in what the clean-up wipes. *)
Definition bounded (n : Z) (p : option bytes) : Prop := forall s, p = Some s -> no_nul s /\ len s <= n.
Definition tame (a : auth_hdr) : Prop := bounded 255 (ah_pwd a) /\ bounded 512 (ah_token a).

Lemma bounded_strndup : forall n s, 0 <= n -> no_nul s -> bounded n (Some (strndup s n)).
Proof.
  intros n s Hn H x E. injection E as <-. unfold strndup. split; [now apply no_nul_firstn|].
  unfold len. rewrite firstn_length. lia.
Qed.
Lemma cstr_no_nul : forall m s, cstr m = Ok s -> no_nul s.
Proof.
  induction m as [|c m IH]; intros s H; cbn in H; [discriminate H|].
  destruct (c =? 0) eqn:E; [injection H as <-; intros []|].
  destruct (cstr m) as [x|]; cbn in H; [|discriminate H]. injection H as <-.
  intros [X|X]; [lia|]. now apply (IH x).
Qed.
Lemma no_nul_skipn : forall n s, no_nul s -> no_nul (skipn n s).
Proof. intros n s H X. apply H. rewrite <- (firstn_skipn n s). apply in_or_app. now right. Qed.

Lemma ok_inj : forall A (a b : A), Ok a = Ok b -> a = b.
Proof. intros. now injection H. Qed.

Lemma tame_new : tame est_create_ah.
Proof. split; intros s H; discriminate H. Qed.

Ltac step H := match type of H with
  | bind ?e _ = _ => let q := fresh "q" in let Q := fresh "Q" in destruct e as [q|] eqn:Q; cbn [bind] in H; [|discriminate H]
  | (let '(_, _) := ?p in _) = _ => destruct p
  | (if ?b then _ else _) = _ => destruct b
  end.

Lemma digest_tame : forall f m s a r, digest_loop f m s a = Ok r -> ah_pwd r = ah_pwd a /\ ah_token r = ah_token a.
Proof.
  induction f as [|f IH]; intros m s a r H; cbn [digest_loop] in H; [discriminate H|].
  repeat first [ injection H as <-; split; reflexivity | apply IH in H; exact H | step H ].
Qed.

Lemma header_tame : forall bio cfg h a uid v r u, mg_parse_auth_header bio cfg h a uid = Ok (v, r, u) -> tame a -> tame r.
Proof.
  intros bio cfg h a uid v r u H T. unfold mg_parse_auth_header in H. destruct h as [h|]; [|injection H as <- <- <-; exact T].
  cbv zeta in H.
  assert (Fin : forall (K : tame r -> tame r) a', tame a' ->
     (if mode_eqb (ah_mode a') AUTH_DIGEST
         && negb (is_some (ah_uri a') && is_some (ah_nonce a') && is_some (ah_nc a') && is_some (ah_cnonce a'))
      then Ok (HDR_BAD, a', uid)
      else if mode_eqb (ah_mode a') AUTH_TOKEN then Ok (HDR_GOOD, a', uid)
      else match ah_user a' with
           | None => Ok (HDR_BAD, a', uid)
           | Some u => Ok (HDR_GOOD, a', strncpy_img u 256)
           end) = Ok (v, r, u) -> tame r).
  { intros _ a' T' X. repeat step X; try (injection X as <- <- <-; exact T').
    destruct (ah_user a'); injection X as <- <- <-; exact T'. }
  destruct (strncaseeq 7 h (str "Digest ")).
  { destruct (negb _); [injection H as <- <- <-; exact T|]. step H. refine (Fin (fun x => x) _ _ H).
    apply digest_tame in Q. destruct Q as [Q1 Q2]. destruct T as [T1 T2]. split; [now rewrite Q1|now rewrite Q2]. }
  destruct (strncaseeq 6 h (str "Basic ")).
  { destruct (negb _); [injection H as <- <- <-; exact T|]. step H. refine (Fin (fun x => x) _ _ H).
    unfold mg_parse_auth_hdr_basic in Q. cbv zeta in Q. destruct T as [T1 T2].
    repeat (first [injection Q as <-; split; assumption | step Q]).
    all: match goal with C : cstr _ = Ok ?s |- _ => pose proof (cstr_no_nul _ _ C) as N end.
    all: apply ok_inj in Q; subst q; (split; [|exact T2]); (apply bounded_strndup; [lia|]);
      apply no_nul_skipn, N. }
  destruct (strncaseeq 7 h (str "Bearer ")).
  { destruct (negb _); [injection H as <- <- <-; exact T|]. step H. refine (Fin (fun x => x) _ _ H).
    unfold mg_parse_auth_hdr_token in Q. cbv zeta in Q. destruct T as [T1 T2].
    repeat (first [injection Q as <-; split; assumption | step Q]).
    match goal with C : cstr _ = Ok ?s |- _ => pose proof (cstr_no_nul _ _ C) as N end.
    apply ok_inj in Q; subst q. split; [exact T1|]. apply bounded_strndup; (lia || exact N). }
  injection H as <- <- <-. exact T.
Qed.

Lemma in_free_only : forall o o' b p, In (o, b) (free_only o' p) -> o = o'.
Proof. intros o o' b [x|]; cbn; [|intros []]. intros [H|[]]. now injection H. Qed.

(** est_destroy_ah on tame secrets. *)
Lemma destroy_tame : forall a, tame a -> exists fr, est_destroy_ah (in_memory a) = Ok fr
    /\ (forall b, In (Password, b) fr <-> exists p, ah_pwd a = Some p /\ b = zeros (len p + 1))
    /\ (forall b, In (Token, b) fr <-> exists t, ah_token a = Some t /\ b = zeros (len t + 1)).
Proof.
  intros a [Tp Tt].
  assert (W : forall o n p, bounded n p ->
    wipe_string o n (terminated p)
      = Ok (match p with None => [] | Some s => [(o, zeros (len s + 1))] end)).
  { intros o n [s|] B; [|reflexivity]. destruct (B s eq_refl) as [N L]. cbn [terminated]. rewrite wipe_short by assumption.
    rewrite zeros_snoc by (unfold len; lia). reflexivity. }
  unfold est_destroy_ah, in_memory. cbn [ah_pwd ah_token ah_user ah_uri ah_cnonce ah_qop ah_nc ah_nonce ah_response].
  rewrite (W Password 255 _ Tp). cbn [bind]. rewrite (W Token 512 _ Tt). cbn [bind].
  eexists. split; [reflexivity|]. clear W Tp Tt.
  split; intros b; rewrite !in_app_iff; split.
  - intros H. repeat match type of H with _ \/ _ => destruct H as [H|H] end;
      try (apply in_free_only in H; discriminate H).
    + destruct (ah_pwd a) as [p|]; [|destruct H]. destruct H as [H|[]]. injection H as <-. now exists p.
    + destruct (ah_token a) as [p|]; [|destruct H]. destruct H as [H|[]]. discriminate H.
  - intros (p & -> & ->). right; left. now left.
  - intros H. repeat match type of H with _ \/ _ => destruct H as [H|H] end;
      try (apply in_free_only in H; discriminate H).
    + destruct (ah_pwd a) as [p|]; [|destruct H]. destruct H as [H|[]]. discriminate H.
    + destruct (ah_token a) as [p|]; [|destruct H]. destruct H as [H|[]]. injection H as <-. now exists p.
  - intros (p & -> & ->). do 8 right. now left.
Qed.

Lemma destroy_header : forall bio cfg h uid v a u,
  mg_parse_auth_header bio cfg h est_create_ah uid = Ok (v, a, u) ->
  exists fr, est_destroy_ah (in_memory a) = Ok fr
    /\ (forall b, In (Password, b) fr <-> exists p, ah_pwd a = Some p /\ b = zeros (len p + 1))
    /\ (forall b, In (Token, b) fr <-> exists t, ah_token a = Some t /\ b = zeros (len t + 1)).
Proof. intros. eapply destroy_tame, header_tame; [eassumption|]. apply tame_new. Qed.

Lemma blank_zeros : forall n, blank (zeros n).
Proof. intros. unfold blank, zeros. induction (Z.to_nat n); constructor; auto. Qed.

Lemma destroy_eca : forall f pwd, no_nul pwd -> len pwd <= 255 ->
  exists fr, est_destroy_ah (in_memory (with_pwd (with_user (with_mode est_create_ah AUTH_BASIC) (strndup f 256)) (strndup pwd 256)))
      = Ok fr /\ In (Password, zeros (len pwd + 1)) fr /\ forall b, In (Password, b) fr -> blank b.
Proof.
  intros f pwd N L. assert (E : strndup pwd 256 = pwd) by (unfold strndup; apply firstn_all2; unfold len in L; lia).
  rewrite E. destruct (destroy_tame (with_pwd (with_user (with_mode est_create_ah AUTH_BASIC) (strndup f 256)) pwd)) as (fr & H & P & _).
  { split; intros s X; [|discriminate X]. injection X as <-. auto. }
  exists fr. split; [exact H|]. split.
  - apply P. now exists pwd.
  - intros b I. apply P in I. destruct I as (p & _ & ->). apply blank_zeros.
Qed.

Lemma cleanse_strings : forall a u p t bu bp bt,
  ah_user a = Some bu -> block_of u bu -> len u <= 255 ->
  ah_pwd a = Some bp -> block_of p bp -> len p <= 255 ->
  ah_token a = Some bt -> block_of t bt -> len t <= 512 ->
  ah_uri a = None -> ah_cnonce a = None -> ah_qop a = None -> ah_nc a = None -> ah_nonce a = None -> ah_response a = None ->
  cleanse_auth_credentials a
    = Ok [(User, zeros (len u) ++ skipn (length u) bu); (Password, zeros (len p) ++ skipn (length p) bp);
          (Token, zeros (len t) ++ skipn (length t) bt)].
Proof.
  intros a u p t bu bp bt Eu [Nu [xu ->]] Lu Ep [Np [xp ->]] Lp Et [Nt [xt ->]] Lt E1 E2 E3 E4 E5 E6.
  unfold cleanse_auth_credentials. rewrite Eu, Ep, Et, E1, E2, E3, E4, E5, E6.
  rewrite !wipe_short by assumption. cbn [bind wipe_string app].
  rewrite !skipn_app, !skipn_all, !Nat.sub_diag. reflexivity.
Qed.

Lemma keygen_wiped : forall rc der fresh cb, 5 <= len der -> len fresh = 2 * len der ->
  (forall b n, cb = Some (b, n) -> 0 <= n <= len b) ->
  let text := b64_wrap (b64_encode der) in
  exists fr t rest, keygen_memory rc der fresh cb = Ok fr
    /\ (fr = [(KeyDer, zeros (len der)); (KeyText, zeros (len t) ++ rest)] \/ fr = [(KeyText, zeros (len t) ++ rest); (KeyDer, zeros (len der))])
    /\ match cb with
       | None => t = text /\ rest = 0 :: skipn (S (length text)) fresh
       | Some (b, n) => b = t ++ rest /\ len t = n
       end.
Proof.
  intros rc der fresh cb L F C text. unfold keygen_memory. rewrite (Z.mul_comm (len der) 2).
  rewrite (encode_twice der fresh true L F). fold text. cbn [bind].
  assert (Fin : forall t rest,
    exists fr, match rc with
      | EST_ERR_NONE => d <- memzero der (len der) ;; t0 <- memzero (t ++ rest) (len t) ;; Ok [(KeyDer, d); (KeyText, t0)]
      | _ => t0 <- memzero (t ++ rest) (len t) ;; d <- memzero der (len der) ;; Ok [(KeyText, t0); (KeyDer, d)]
      end = Ok fr
    /\ (fr = [(KeyDer, zeros (len der)); (KeyText, zeros (len t) ++ rest)] \/ fr = [(KeyText, zeros (len t) ++ rest); (KeyDer, zeros (len der))])).
  { intros t rest. rewrite memzero_all, memzero_spec. cbn [bind].
    exists (match rc with EST_ERR_NONE => [(KeyDer, zeros (len der)); (KeyText, zeros (len t) ++ rest)]
          | _ => [(KeyText, zeros (len t) ++ rest); (KeyDer, zeros (len der))] end).
    split; destruct rc; auto. }
  destruct cb as [[b n]|].
  - specialize (C b n eq_refl).
    assert (E : len (firstn (Z.to_nat n) b) = n) by (unfold len in *; rewrite firstn_length; lia).
    destruct (Fin (firstn (Z.to_nat n) b) (skipn (Z.to_nat n) b)) as (fr & H & K). rewrite firstn_skipn, E in H.
    exists fr, (firstn (Z.to_nat n) b), (skipn (Z.to_nat n) b). rewrite firstn_skipn. auto.
  - destruct (Fin text (0 :: skipn (S (length text)) fresh)) as (fr & H & K). eauto 10.
Qed.

Lemma coap_wiped : forall text slack junk d,
  coap_keygen_memory text slack junk d (len d)
    = Ok [(KeyText, zeros (len text) ++ slack); (KeyText, zeros (len text + 1)); (KeyDer, zeros (len d) ++ skipn (length d) junk)].
Proof.
  intros. unfold coap_keygen_memory. rewrite !memzero_spec. cbn [bind]. rewrite zeros_snoc by (unfold len; lia). reflexivity.
Qed.
Lemma copied_wiped : forall key, copied_key_memory key = Ok [(KeyText, zeros (len key + 1))].
Proof.
  intros. unfold copied_key_memory. rewrite memzero_spec. cbn [bind]. rewrite zeros_snoc by (unfold len; lia). reflexivity.
Qed.
Lemma memzero_n : forall b n, 0 <= n <= len b -> memzero b n = Ok (zeros n ++ skipn (Z.to_nat n) b).
Proof. intros b n H. unfold memzero. replace ((0 <=? n) && (n <=? len b)) with true by lia. reflexivity. Qed.

Lemma proxy_wiped : forall http w block klen clen, len block = 8192 -> 0 <= klen <= 8192 ->
  (0 < klen -> 0 < clen -> http = true -> w = EST_ERR_NONE) ->
  exists b, proxy_keygen_memory http w block klen clen = Ok ([(KeyText, b)], [])
    /\ (0 < klen -> 0 < clen -> b = zeros klen ++ skipn (Z.to_nat klen) block)
    /\ (klen <= 0 \/ clen <= 0 -> b = zeros 8192).
Proof.
  intros http w block klen clen L K W. unfold proxy_keygen_memory. destruct ((0 <? clen) && (0 <? klen)) eqn:E.
  - assert (H : (if http then w else EST_ERR_NONE) = EST_ERR_NONE) by (destruct http; [apply W; try reflexivity; lia|reflexivity]).
    rewrite H, memzero_n by lia. cbn [bind]. eexists. split; [reflexivity|]. split; [reflexivity|]. intros X. lia.
  - rewrite <- L, memzero_all, L. cbn [bind]. eexists. split; [reflexivity|]. split; [|reflexivity]. intros X Y. lia.
Qed.

Lemma client_not_wiped : forall raw key junk old der, holds key raw ->
  let '(fr, lost) := client_keygen_memory raw key junk (Some old) (Some der) in
  Forall (fun ob => holds key (snd ob) \/ holds old (snd ob)) fr /\ len fr = 4 /\ In der lost
  /\ In (KeyText, old ++ [0]) fr.
Proof.
  intros raw key junk old der H. unfold client_keygen_memory. cbn [free_only terminated app].
  split; [|split; [reflexivity|split; [now left|cbn; auto]]].
  apply Forall_cons; [left; exact H|]. apply Forall_cons; [left; now exists [], [0]|].
  apply Forall_cons; [right; now exists [], [0]|]. apply Forall_cons; [left; now exists [], (skipn (length key) junk)|].
  apply Forall_nil.
Qed.

Lemma img_holds : forall s n, len s <= n -> exists t, strncpy_img s n = s ++ t.
Proof.
  intros s n L. unfold strncpy_img. exists (repeat 0 (Z.to_nat n - length s)).
  rewrite firstn_app, firstn_all2 by (unfold len in L; lia). f_equal.
  rewrite <- (firstn_all (repeat 0 (Z.to_nat n - length s))) at 1. rewrite repeat_length.
  assert (G : forall a b, (a <= b)%nat -> firstn a (repeat 0 b) = repeat 0 a).
  { induction a; intros [|b] Hab; cbn; try reflexivity; try lia. f_equal. apply IHa. lia. }
  rewrite !G by lia. reflexivity.
Qed.

Lemma context_not_wiped : forall password eca key, len password <= 255 -> len eca <= 255 ->
  let '(fr, lost) := est_destroy password eca (Some key) in
  exists b, fr = [(Context, b)] /\ holds password b /\ holds eca b /\ In (key ++ [0]) lost.
Proof.
  intros password eca key L1 L2. unfold est_destroy. eexists. split; [reflexivity|].
  destruct (img_holds password 256) as [x X]; [lia|]. destruct (img_holds eca 256) as [y Y]; [lia|]. rewrite X, Y.
  split; [|split; [|now left]].
  - exists [], (x ++ eca ++ y). now rewrite <- app_assoc.
  - exists (password ++ x), y. reflexivity.
Qed.

Lemma long_not_wiped : forall s, no_nul s ->
  (255 < len s -> exists b, cleanse_auth_credentials (with_pwd est_create_ah (s ++ [0])) = Ok [(Password, b)] /\ holds (skipn 255 s) b)
  /\ (512 < len s -> exists b, cleanse_auth_credentials (with_token est_create_ah (s ++ [0])) = Ok [(Token, b)] /\ holds (skipn 512 s) b).
Proof.
  intros s N. split; intros L; unfold cleanse_auth_credentials;
    cbn [with_pwd with_token est_create_ah ah_user ah_pwd ah_uri ah_cnonce ah_qop ah_nc ah_nonce ah_response ah_token];
    rewrite wipe_spec by (assumption || lia); cbn [wipe_string bind app].
  - eexists. split; [reflexivity|]. exists (zeros (Z.min (len s) 255)), [0]. reflexivity.
  - eexists. split; [reflexivity|]. exists (zeros (Z.min (len s) 512)), [0]. reflexivity.
Qed.

Lemma coap_not_wiped : forall text slack junk d,
  exists r k b, coap_keygen_memory text slack junk d 0 = Ok [r; k; (KeyDer, b)] /\ holds d b.
Proof.
  intros. unfold coap_keygen_memory. rewrite !memzero_spec. cbn [bind]. rewrite memzero_n by (unfold len; lia). cbn [bind].
  eexists _, _, _. split; [reflexivity|]. cbn. now exists [], (skipn (length d) junk).
Qed.

Lemma proxy_not_wiped : forall w block klen clen, w <> EST_ERR_NONE -> 0 < klen -> 0 < clen ->
  proxy_keygen_memory true w block klen clen = Ok ([], [block]).
Proof.
  intros w block klen clen W K C. unfold proxy_keygen_memory. replace ((0 <? clen) && (0 <? klen)) with true by lia.
  destruct w; try reflexivity. destruct (W eq_refl).
Qed.
