(** The CBOR payload of server key generation over CoAP. *)
From Coq Require Import String ZArith List Bool Lia ZifyBool ZifyNat.
From Verif Require Import Base Spec.Base64 Spec.Cbor Spec.CoapHistory Model.CLib Model.EstErr Model.Codec Model.Coap Proofs.Codec.
Import ListNotations.
Open Scope Z_scope.
Ltac Zify.zify_post_hook ::= Z.to_euclidean_division_equations.

(** ** Writing into a block *)
Lemma blit_ok : forall buf off data, 0 <= off -> off + len data <= len buf ->
  blit buf off data = Ok (firstn (Z.to_nat off) buf ++ data ++ skipn (Z.to_nat (off + len data)) buf).
Proof. intros. unfold blit. replace ((off <? 0) || (len buf <? off + len data)) with false by lia. reflexivity. Qed.

Lemma put_app : forall done rest data, (length data <= length rest)%nat ->
  put (done ++ rest, len done) data = Ok ((done ++ data) ++ skipn (length data) rest, len (done ++ data)).
Proof.
  intros done rest data H. unfold put, fst, snd. pose proof (len_nonneg _ done).
  rewrite blit_ok by (rewrite ?len_app; unfold len in *; lia). cbn [bind].
  rewrite len_app. f_equal. f_equal. unfold len. rewrite Nat2Z.id, firstn_app, Nat.sub_diag, firstn_all. cbn [firstn].
  rewrite app_nil_r, <- app_assoc. do 2 f_equal.
  replace (Z.to_nat (Z.of_nat (length done) + Z.of_nat (length data))) with (length done + length data)%nat by lia.
  rewrite skipn_app, skipn_all2 by lia. cbn. f_equal. lia.
Qed.

Lemma be_bytes_length : forall k v, length (be_bytes k v) = k.
Proof. induction k as [|k IH]; intro v; cbn; [reflexivity|now rewrite IH]. Qed.

Lemma be_bytes_value : forall k v acc, 0 <= v ->
  fold_left (fun n x => n * 256 + x) (be_bytes k v) acc = acc * 256 ^ Z.of_nat k + v mod 256 ^ Z.of_nat k.
Proof.
  induction k as [|k IH]; intros v acc Hv.
  - cbn. change (256 ^ 0) with 1. rewrite Z.mod_1_r. lia.
  - cbn [be_bytes fold_left]. rewrite IH by assumption.
    change 255 with (Z.ones 8). rewrite Z.land_ones by lia. rewrite Z.shiftr_div_pow2 by lia.
    replace (2 ^ (8 * Z.of_nat k)) with (256 ^ Z.of_nat k) by (change 256 with (2 ^ 8); rewrite <- Z.pow_mul_r by lia; reflexivity).
    change (2 ^ 8) with 256.
    rewrite Nat2Z.inj_succ, Z.pow_succ_r by lia.
    set (q := 256 ^ Z.of_nat k). assert (0 < q) by (apply Z.pow_pos_nonneg; lia).
    replace (256 * q) with (q * 256) by lia. rewrite (Z.rem_mul_r v q 256) by lia. clearbody q. nia.
Qed.

Definition bstr_bytes (d : bytes) : bytes :=
  let s := makeCborBytestring (len d) d in
  cb_initial s :: be_bytes (Z.to_nat (cb_n s)) (len d) ++ d.

Lemma make_len : forall d, cb_len (makeCborBytestring (len d) d) = len d /\ cb_data (makeCborBytestring (len d) d) = d
  /\ 0 <= cb_n (makeCborBytestring (len d) d).
Proof.
  intro d. unfold makeCborBytestring. destruct (len d <=? 23), (len d <=? 255), (len d <=? 65535), (len d <=? 4294967295);
    cbn; repeat split; lia.
Qed.

Lemma be_bytes_len : forall k v, len (be_bytes k v) = Z.of_nat k.
Proof. intros. unfold len. now rewrite be_bytes_length. Qed.

Lemma bstr_bytes_len : forall d, len (bstr_bytes d) = bstr_size (len d).
Proof.
  intro d. unfold bstr_bytes. rewrite len_cons, len_app, be_bytes_len. unfold bstr_size, makeCborBytestring.
  pose proof (len_nonneg _ d).
  destruct (len d <=? 23) eqn:A; [replace (len d <? 24) with true by lia; cbn [cb_n]; lia|].
  replace (len d <? 24) with false by lia.
  destruct (len d <=? 255) eqn:B; [replace (len d <? 256) with true by lia; cbn [cb_n]; lia|].
  replace (len d <? 256) with false by lia.
  destruct (len d <=? 65535) eqn:C; [replace (len d <? 65536) with true by lia; cbn [cb_n]; lia|].
  replace (len d <? 65536) with false by lia.
  destruct (len d <=? 4294967295) eqn:D; [replace (len d <? 4294967296) with true by lia; cbn [cb_n]; lia|].
  replace (len d <? 4294967296) with false by lia. cbn [cb_n]. lia.
Qed.

Lemma make_size : forall d, 1 + cb_n (makeCborBytestring (len d) d) + len d = bstr_size (len d).
Proof.
  intro d. rewrite <- bstr_bytes_len. unfold bstr_bytes. rewrite len_cons, len_app.
  destruct (make_len d) as (_ & _ & N). rewrite be_bytes_len. lia.
Qed.

Lemma write_bstr : forall done rest d, (length (bstr_bytes d) <= length rest)%nat ->
  writeCborBytestring (done ++ rest, len done) (makeCborBytestring (len d) d)
  = Ok ((done ++ bstr_bytes d) ++ skipn (length (bstr_bytes d)) rest, len (done ++ bstr_bytes d)).
Proof.
  intros done rest d H. unfold writeCborBytestring. destruct (make_len d) as (L & D & _). rewrite L, D.
  unfold bstr_bytes in *. set (s := makeCborBytestring (len d) d) in *. cbv zeta in *. clearbody s.
  set (lb := be_bytes (Z.to_nat (cb_n s)) (len d)) in *. clearbody lb. cbn [length] in H. rewrite app_length in H.
  rewrite put_app by (cbn; lia). cbn [bind]. rewrite put_app by (rewrite skipn_length; cbn; lia). cbn [bind].
  replace (len d <? len d) with false by lia.
  replace (firstn (Z.to_nat (len d)) d) with d by (unfold len; rewrite Nat2Z.id, firstn_all; reflexivity).
  rewrite put_app by (rewrite !skipn_length; cbn; lia).
  assert (E : forall (a b : nat) (l : bytes), skipn a (skipn b l) = skipn (b + a) l).
  { intros a b; revert a; induction b as [|b IH]; intros a l; [reflexivity|]. destruct l; [now rewrite !skipn_nil|]. cbn. apply IH. }
  rewrite !E. do 2 f_equal; [f_equal|].
  - rewrite <- !app_assoc. reflexivity.
  - f_equal. cbn. rewrite app_length. lia.
  - rewrite <- !app_assoc. reflexivity.
Qed.

(** ** Decoding *)
Lemma take_app : forall a b, take (len a) (a ++ b) = Some (a, b).
Proof.
  intros a b. unfold take. rewrite len_app. pose proof (len_nonneg _ b). replace (len a <=? len a + len b) with true by lia.
  unfold len. rewrite Nat2Z.id, firstn_app, skipn_app, firstn_all, skipn_all, Nat.sub_diag. cbn. now rewrite app_nil_r.
Qed.

Lemma head_bstr : forall d r, len d < 2 ^ 64 -> head (bstr_bytes d ++ r) = Some (2, len d, d ++ r).
Proof.
  intros d r Hd. unfold bstr_bytes, makeCborBytestring. pose proof (len_nonneg _ d).
  assert (ARG : forall k, len d < 256 ^ Z.of_nat k ->
            take (Z.of_nat k) ((be_bytes k (len d) ++ d) ++ r) = Some (be_bytes k (len d), d ++ r)
            /\ big_endian (be_bytes k (len d)) = len d).
  { intros k Hk. split.
    - replace (Z.of_nat k) with (len (be_bytes k (len d))) at 1 by (unfold len; now rewrite be_bytes_length).
      rewrite <- app_assoc. apply take_app.
    - unfold big_endian. rewrite be_bytes_value by lia. rewrite Z.mod_small by lia. lia. }
  destruct (len d <=? 23) eqn:A.
  { cbn [cb_initial cb_n be_bytes Z.to_nat app]. unfold head.
    replace ((64 + len d) mod 32) with (len d) by lia. replace (len d <? 24) with true by lia.
    replace ((64 + len d) / 32) with 2 by lia. reflexivity. }
  destruct (len d <=? 255) eqn:B.
  { cbn [cb_initial cb_n]. destruct (ARG 1%nat) as [T V]; [cbn; lia|]. cbn [app head].
    change (88 mod 32 <? 24) with false. change (88 mod 32 =? 24) with true. change (88 / 32) with 2.
    change (Z.to_nat 1) with 1%nat. change (Z.of_nat 1) with 1 in T. cbv zeta. rewrite T, V. reflexivity. }
  destruct (len d <=? 65535) eqn:C.
  { cbn [cb_initial cb_n]. destruct (ARG 2%nat) as [T V]; [cbn; lia|]. cbn [app head].
    change (89 mod 32 <? 24) with false. change (89 mod 32 =? 24) with false. change (89 mod 32 =? 25) with true. change (89 / 32) with 2.
    change (Z.to_nat 2) with 2%nat. change (Z.of_nat 2) with 2 in T. cbv zeta. rewrite T, V. reflexivity. }
  destruct (len d <=? 4294967295) eqn:D.
  { cbn [cb_initial cb_n]. destruct (ARG 4%nat) as [T V]; [cbn; lia|]. cbn [app head].
    change (90 mod 32 <? 24) with false. change (90 mod 32 =? 24) with false. change (90 mod 32 =? 25) with false.
    change (90 mod 32 =? 26) with true. change (90 / 32) with 2.
    change (Z.to_nat 4) with 4%nat. change (Z.of_nat 4) with 4 in T. cbv zeta. rewrite T, V. reflexivity. }
  cbn [cb_initial cb_n]. destruct (ARG 8%nat) as [T V]; [cbn in *; lia|]. cbn [app head].
  change (91 mod 32 <? 24) with false. change (91 mod 32 =? 24) with false. change (91 mod 32 =? 25) with false.
  change (91 mod 32 =? 26) with false. change (91 mod 32 =? 27) with true. change (91 / 32) with 2.
  change (Z.to_nat 8) with 8%nat. change (Z.of_nat 8) with 8 in T. cbv zeta. rewrite T, V. reflexivity.
Qed.

Lemma decode_bstr : forall n d r, len d < 2 ^ 64 -> decode n (bstr_bytes d ++ r) = Some (BStr d, r).
Proof.
  intros n d r H. assert (E : decode n (bstr_bytes d ++ r) =
    match head (bstr_bytes d ++ r) with
    | None => None
    | Some (major, k, r') =>
      if major =? 0 then Some (UInt k, r')
      else if major =? 2 then match take k r' with Some (b, r'') => Some (BStr b, r'') | None => None end
      else decode n (bstr_bytes d ++ r)
    end).
  { destruct n; cbn [decode]; rewrite head_bstr by assumption; cbn -[take]; destruct (take _ _) as [[? ?]|]; reflexivity. }
  rewrite E, head_bstr by assumption. cbn -[take]. now rewrite take_app.
Qed.

Lemma decode_uint16 : forall n a b r, decode n (25 :: a :: b :: r) = Some (UInt ((0 * 256 + a) * 256 + b), r).
Proof.
  intros n a b r.
  assert (T : take 2 (a :: b :: r) = Some ([a; b], r)) by exact (take_app [a; b] r).
  assert (H : head (25 :: a :: b :: r) = Some (0, (0 * 256 + a) * 256 + b, r)).
  { unfold head. change (25 mod 32 <? 24) with false. change (25 mod 32 =? 24) with false. change (25 mod 32 =? 25) with true.
    cbv zeta iota. rewrite T. reflexivity. }
  destruct n; cbn [decode]; rewrite H; reflexivity.
Qed.

Definition skg_bytes (k c : bytes) : bytes :=
  ((([132; 25] ++ [1; 28]) ++ bstr_bytes k) ++ [25; 1; 25]) ++ bstr_bytes c.

Lemma skg_bytes_cbor : forall k c, len k < 2 ^ 64 -> len c < 2 ^ 64 ->
  cbor (skg_bytes k c) (Arr [UInt 284; BStr k; UInt 281; BStr c]).
Proof.
  intros k c Hk Hc. unfold cbor, skg_bytes. rewrite <- !app_assoc. cbn [app].
  assert (D4 : forall s a b c d s1 s2 s3 s4, decode 0 s = Some (a, s1) -> decode 0 s1 = Some (b, s2) ->
    decode 0 s2 = Some (c, s3) -> decode 0 s3 = Some (d, s4) -> decode 1 (132 :: s) = Some (Arr [a; b; c; d], s4)).
  { intros s a b c' d s1 s2 s3 s4 H1 H2 H3 H4. assert (H : head (132 :: s) = Some (4, 4, s)) by reflexivity.
    remember 0%nat as z eqn:Ez. replace (decode 1 (132 :: s)) with (decode (S z) (132 :: s)) by now rewrite Ez. clear Ez.
    cbn [decode]. rewrite H. change (4 =? 0) with false. change (4 =? 2) with false. change (4 =? 4) with true.
    change (Z.to_nat 4) with 4%nat. cbv beta iota. rewrite H1.
    cbv beta iota. rewrite H2. cbv beta iota. rewrite H3. cbv beta iota. rewrite H4. reflexivity. }
  rewrite <- (app_nil_r (bstr_bytes c)).
  eapply D4; [apply decode_uint16|apply decode_bstr; assumption|apply decode_uint16|apply decode_bstr; assumption].
Qed.

Lemma skg_bytes_len : forall k c, len (skg_bytes k c) = keygen_size k c.
Proof.
  intros k c. unfold skg_bytes, keygen_size. rewrite !len_app, !bstr_bytes_len. unfold len. cbn. lia.
Qed.

(** ** The text is decoded *)
Section Bio.
Variable bio : bool -> bytes -> Z -> bytes.
Hypothesis Hbio : b64_bio bio.

(** The number of bytes a text stands for does not depend on the room given. *)
Lemma decode_same_len : forall rb s m1 m2 n1 d1 n2 d2,
  est_base64_decode bio rb s m1 = Ok (n1, d1) -> est_base64_decode bio rb s m2 = Ok (n2, d2) ->
  0 < n1 -> 0 < n2 -> n1 = n2.
Proof.
  intros rb s m1 m2 n1 d1 n2 d2. unfold est_base64_decode. destruct (est_base64_str_analyze s) as [[lnw l] nl].
  set (x1 := if negb (Z.rem m1 3 =? 0) then _ else _). set (x2 := if negb (Z.rem m2 3 =? 0) then _ else _). clearbody x1 x2.
  destruct (x1 <? lnw); [intro H; inversion H; subst; lia|].
  destruct (x2 <? lnw); [intros _ H; inversion H; subst; lia|].
  destruct (negb (lnw mod 4 =? 0)); [intro H; inversion H; subst; lia|].
  destruct (last_non_ws _ _ _) as [idx|]; [|discriminate]. cbn [bind].
  destruct (idx <? 2); [intro H; inversion H; subst; lia|].
  set (e := 3 * lnw / 4 - _). clearbody e.
  destruct (len (bio (negb nl) s m1) =? e) eqn:E1; cbn [negb]; [|intro H; inversion H; subst; lia].
  destruct (len (bio (negb nl) s m2) =? e) eqn:E2; cbn [negb]; [|intros _ H; inversion H; subst; lia].
  intros H1 H2. inversion H1; inversion H2; subst. lia.
Qed.

(** A text as an encoder writes it. *)

Lemma text_decode : forall t d m, text_of t d -> all_bytes d -> d <> [] -> len d <= m ->
  est_base64_decode bio false t m = Ok (len d, d).
Proof. intros t d m [-> | ->] H1 H2 H3; [now apply decode_line|now apply decode_wrapped]. Qed.

Lemma b64_lines_in : forall f s x, In x (b64_lines f s) -> x = 10 \/ In x s.
Proof.
  induction f as [|f IH]; intros s x H; [destruct H|]. cbn [b64_lines] in H. destruct s as [|c s]; [destruct H|].
  apply in_app_or in H as [H|H].
  - right. rewrite <- (firstn_skipn 64 (c :: s)). apply in_or_app. now left.
  - destruct H as [H|H]; [now left|]. apply IH in H as [H|H]; [now left|]. right.
    rewrite <- (firstn_skipn 64 (c :: s)). apply in_or_app. now right.
Qed.

Lemma text_no_nul : forall t d, text_of t d -> all_bytes d -> no_nul t.
Proof.
  intros t d H Hd K. pose proof (b64_encode_txt d Hd) as T. rewrite Forall_forall in T.
  assert (E : In 0 (b64_encode d) -> False) by (intro I; apply T in I; unfold b64_txt in I; lia).
  destruct H as [-> | ->]; [auto|]. apply b64_lines_in in K as [K|K]; [discriminate|auto].
Qed.

Lemma cstr_app0 : forall t, no_nul t -> cstr (t ++ [0]) = Ok t.
Proof.
  induction t as [|c t IH]; intro H; [reflexivity|]. cbn [app cstr].
  destruct (c =? 0) eqn:E; [exfalso; apply H; left; lia|]. rewrite IH by (intro K; apply H; now right). reflexivity.
Qed.

Lemma lines_long : forall f s, (length s <= f)%nat -> len s <= len (b64_lines f s).
Proof.
  induction f as [|f IH]; intros s H; [destruct s; [cbn; lia|cbn in H; lia]|].
  cbn [b64_lines]. destruct s as [|c s]; [cbn; lia|]. rewrite !len_app.
  assert (L : (length (skipn 64 (c :: s)) <= f)%nat) by (rewrite skipn_length; cbn [length] in *; lia).
  specialize (IH _ L). rewrite <- (firstn_skipn 64 (c :: s)) at 1. rewrite len_app. unfold len in *. cbn [length]. lia.
Qed.

Lemma text_long : forall t d, text_of t d -> len d <= len t.
Proof.
  intros t d H. pose proof (b64_encode_len d) as E. pose proof (len_nonneg _ d).
  assert (len d <= len (b64_encode d)) by lia. destruct H as [-> | ->]; [assumption|].
  unfold b64_wrap. pose proof (lines_long (length (b64_encode d)) (b64_encode d) (le_n _)). lia.
Qed.

Lemma decode_text_ok : forall t d m, text_of t d -> all_bytes d -> d <> [] -> 0 <= m ->
  decode_text bio t m = Ok (if len d <=? m then Some d else None).
Proof.
  intros t d m H Hd Hne Hm. unfold decode_text. rewrite cstr_app0 by (now apply (text_no_nul _ d)). cbn [bind].
  assert (P : 0 < len d) by (destruct d; [congruence|rewrite len_cons; pose proof (len_nonneg _ d); lia]).
  destruct (len d <=? m) eqn:E.
  - rewrite (text_decode t d) by (auto; lia). cbn [bind]. replace (len d <=? 0) with false by lia. reflexivity.
  - assert (S : is_ok (est_base64_decode bio false t m)).
    { apply decode_safe. right. 
      destruct (b64_encode_tail d Hd Hne) as (p & w & x & y & z & Et & _).
      pose proof (b64_encode_txt d Hd) as T. rewrite Et in T. apply Forall_app in T as [_ T]. inversion T as [|? ? Tw _]; subst.
      exists w. assert (W : isspace w = false) by (unfold isspace, b64_txt in *; lia). split; [|exact W].
      destruct H as [-> | ->]; [rewrite Et; apply in_or_app; right; now left|].
      assert (F : In w (filter (fun c => negb (isspace c)) (b64_wrap (b64_encode d)))).
      { unfold b64_wrap. rewrite b64_lines_filter by (auto; apply b64_encode_txt; assumption). rewrite Et. apply in_or_app. right. now left. }
      now apply filter_In in F. }
    destruct S as [[n x] S]. rewrite S. cbn [bind].
    pose proof (decode_bounded bio Hbio _ _ _ _ _ Hm S) as (B & _).
    destruct (n <=? 0) eqn:N; [reflexivity|].
    pose proof (decode_same_len _ _ _ _ _ _ _ _ (text_decode t d (len d) H Hd Hne (Z.le_refl _)) S). lia.
Qed.

Lemma writes : forall k c,
  (w <- put (repeat 0 (Z.to_nat (keygen_size k c)), 0) [128 + 4] ;;
   w <- put w [25] ;;
   w <- put w [Z.shiftr 284 8; Z.land 284 255] ;;
   w <- writeCborBytestring w (makeCborBytestring (len k) k) ;;
   w <- put w [25] ;;
   w <- put w [Z.shiftr 281 8; Z.land 281 255] ;;
   w <- writeCborBytestring w (makeCborBytestring (len c) c) ;;
   Ok (Some (firstn (Z.to_nat (keygen_size k c)) (fst w)))) = Ok (Some (skg_bytes k c)).
Proof.
  intros k c. rewrite <- skg_bytes_len.
  replace (Z.to_nat (len (skg_bytes k c))) with (length (skg_bytes k c)) by (unfold len; lia).
  set (z := repeat 0 (length (skg_bytes k c))).
  assert (Lz : length z = length (skg_bytes k c)) by (unfold z; now rewrite repeat_length).
  assert (Ls : length (skg_bytes k c) = (4 + length (bstr_bytes k) + 3 + length (bstr_bytes c))%nat).
  { unfold skg_bytes. rewrite !app_length. cbn [length]. lia. }
  clearbody z.
  assert (E : forall (a b : nat) (l : bytes), skipn a (skipn b l) = skipn (b + a) l).
  { intros a b; revert a; induction b as [|b IH]; intros a l; [reflexivity|]. destruct l; [now rewrite !skipn_nil|]. cbn. apply IH. }
  change (z, 0) with ([] ++ z, len (@nil Z)).
  rewrite put_app by (cbn [length]; lia). cbn [bind].
  rewrite put_app by (rewrite ?skipn_length; cbn [length]; lia). cbn [bind].
  rewrite put_app by (rewrite ?skipn_length; cbn [length]; lia). cbn [bind].
  rewrite write_bstr by (rewrite ?skipn_length; cbn [length]; lia). cbn [bind].
  rewrite put_app by (rewrite ?skipn_length; cbn [length]; lia). cbn [bind].
  rewrite put_app by (rewrite ?skipn_length; cbn [length]; lia). cbn [bind].
  rewrite write_bstr by (rewrite ?skipn_length; cbn [length]; lia). cbn [bind fst].
  rewrite !E. cbn [length]. rewrite skipn_all2 by lia. rewrite app_nil_r.
  f_equal. f_equal. change [128 + 4] with [132].
  change [Z.shiftr 284 8; Z.land 284 255] with [1; 28]. change [Z.shiftr 281 8; Z.land 281 255] with [1; 25].
  rewrite <- (firstn_all (skg_bytes k c)) at 2. unfold skg_bytes. rewrite <- !app_assoc. reflexivity.
Qed.

Lemma keygen_size_eq : forall k c,
  1 + 1 + 2 + 1 + cb_n (makeCborBytestring (len k) k) + cb_len (makeCborBytestring (len k) k) + (1 + 2 + 1)
  + cb_n (makeCborBytestring (len c) c) + cb_len (makeCborBytestring (len c) c) = keygen_size k c.
Proof.
  intros k c. unfold keygen_size. rewrite <- !make_size. destruct (make_len k) as (-> & _). destruct (make_len c) as (-> & _). lia.
Qed.

Lemma bstr_size_ge : forall n, n + 1 <= bstr_size n.
Proof. intro n. unfold bstr_size. destruct (n <? 24), (n <? 256), (n <? 65536), (n <? 4294967296); lia. Qed.

(** The payload of an RFC 4648 key and certificate text. *)
Theorem skg_exact : forall key cert k c,
  text_of key k -> text_of cert c -> all_bytes k -> all_bytes c -> k <> [] -> c <> [] ->
  skg_payload bio key cert = Ok (if keygen_size k c <=? 16384 then Some (skg_bytes k c) else None).
Proof.
  intros key cert k c Tk Tc Bk Bc Nk Nc. unfold skg_payload.
  pose proof (text_long _ _ Tk) as Lk. pose proof (text_long _ _ Tc) as Lc.
  pose proof (bstr_size_ge (len k)) as Gk. pose proof (bstr_size_ge (len c)) as Gc.
  pose proof (len_nonneg _ k) as Pk. pose proof (len_nonneg _ c) as Pc.
  unfold COAP_REQ_NODE_BUF_LEN_MAX.
  set (kmax := if _ <? len key then _ else _).
  rewrite (decode_text_ok key k kmax) by (auto; unfold kmax; destruct (_ <? len key) eqn:?; lia). cbn [bind].
  assert (Kd : (len k <=? kmax) = (len k <=? 16379)) by (unfold kmax; destruct (_ <? len key) eqn:E; lia).
  rewrite Kd. clear Kd. clearbody kmax.
  destruct (len k <=? 16379) eqn:E1.
  2:{ replace (keygen_size k c <=? 16384) with false; [reflexivity|]. unfold keygen_size. lia. }
  pose proof (make_size k) as Mk. pose proof (make_size c) as Mc.
  destruct (make_len k) as (Ek & _ & Ik). destruct (make_len c) as (Ec & _ & Ic).
  set (n1 := 1 + 1 + 2 + 1 + cb_n (makeCborBytestring (len k) k) + cb_len (makeCborBytestring (len k) k) + (1 + 2 + 1)).
  assert (En1 : n1 = 4 + bstr_size (len k) + 4) by (unfold n1; rewrite Ek, <- Mk; lia).
  set (cmax := if 16384 - n1 <? len cert then 16384 - n1 else len cert).
  destruct (cmax <? 0) eqn:E2.
  { replace (keygen_size k c <=? 16384) with false; [reflexivity|]. unfold keygen_size.
    unfold cmax in E2. destruct (16384 - n1 <? len cert) eqn:F; [|pose proof (len_nonneg _ cert)]; lia. }
  rewrite (decode_text_ok cert c cmax) by (auto; lia). cbn [bind].
  assert (Cd : (len c <=? cmax) = (len c <=? 16384 - n1)) by (unfold cmax; destruct (16384 - n1 <? len cert) eqn:F; lia).
  rewrite Cd. clear Cd E2. clearbody cmax.
  destruct (len c <=? 16384 - n1) eqn:E3.
  2:{ replace (keygen_size k c <=? 16384) with false; [reflexivity|]. unfold keygen_size. lia. }
  cbv beta iota. unfold n1. rewrite keygen_size_eq.
  destruct (16384 <? keygen_size k c) eqn:E4.
  { replace (keygen_size k c <=? 16384) with false by lia. reflexivity. }
  replace (keygen_size k c <=? 16384) with true by lia. apply writes.
Qed.

(** Whatever the texts are, a payload that is sent decodes to what they decoded to. *)
Theorem skg_sound : forall key cert p, skg_payload bio key cert = Ok (Some p) ->
  exists k c kmax cmax,
    decode_text bio key kmax = Ok (Some k) /\ decode_text bio cert cmax = Ok (Some c) /\
    p = skg_bytes k c /\ len p <= 16384.
Proof.
  intros key cert p. unfold skg_payload. set (kmax := if _ <? len key then _ else _).
  destruct (decode_text bio key kmax) as [[k|]|] eqn:Dk; cbn [bind]; try discriminate.
  set (n1 := 1 + 1 + 2 + 1 + _ + _ + (1 + 2 + 1)). set (cmax := if COAP_REQ_NODE_BUF_LEN_MAX - n1 <? len cert then _ else _).
  destruct (cmax <? 0); [discriminate|].
  destruct (decode_text bio cert cmax) as [[c|]|] eqn:Dc; cbn [bind]; try discriminate.
  unfold n1. rewrite keygen_size_eq. unfold COAP_REQ_NODE_BUF_LEN_MAX.
  destruct (16384 <? keygen_size k c) eqn:E; [discriminate|]. intro H.
  rewrite writes in H. inversion H; subst p. exists k, c, kmax, cmax. rewrite skg_bytes_len. repeat split; auto. lia.
Qed.

End Bio.
