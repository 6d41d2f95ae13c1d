(** The client's voucher processing. *)
From Coq Require Import String ZArith List Bool Lia ZifyBool ZifyNat.
From Verif Require Import Base Spec.Base64 Spec.Json Spec.Voucher Model.CLib Model.EstErr Model.Codec Model.AuthHdr Model.Jsmn Model.Voucher
  Proofs.EstErr Proofs.Codec Proofs.Jsmn Proofs.JsmnSafe.
From Verif Require Proofs.AuthDigest.
Import ListNotations.
Open Scope Z_scope.

(** ** Finding a token *)
Lemma strncmp_eq_piece : forall a b, strncmp_eq (length b) a b = true <-> firstn (length b) a = b.
Proof.
  intros a b. revert a. induction b as [|y b IH]; intros [|x a]; cbn; split; intro H; try reflexivity; try discriminate.
  - apply andb_true_iff in H as [H1 H2]. apply Z.eqb_eq in H1. apply IH in H2. congruence.
  - injection H as H1 H2. subst x. rewrite Z.eqb_refl. cbn. now apply IH.
Qed.
Lemma len_piece : forall s a b, 0 <= a <= b -> b <= len s -> len (piece s a b) = b - a.
Proof. intros s a b R L. unfold piece. rewrite len_firstn, len_skipn. lia. Qed.
Lemma jsoneq_text : forall s t name, placed s t -> jsoneq s t name = jtype_eqb (t_type t) JSMN_STRING && beq (token_text s t) name.
Proof.
  intros s t name (R & L & _). unfold jsoneq. rewrite <- andb_assoc. f_equal.
  pose proof (len_piece s _ _ R L) as LP. unfold token_text. apply eq_true_iff_eq.
  rewrite andb_true_iff, beq_eq, Z.eqb_eq. split.
  - intros [E H]. replace (Z.to_nat (t_end t - t_start t)) with (length name) in H by (unfold len in E; lia).
    apply strncmp_eq_piece in H. unfold piece. replace (Z.to_nat (t_end t - t_start t)) with (length name) by (unfold len in E; lia). exact H.
  - intros <-. split; [exact LP|]. replace (Z.to_nat (t_end t - t_start t)) with (length (piece s (t_start t) (t_end t))) by (unfold len in LP; lia).
    apply strncmp_eq_piece. unfold piece at 2. f_equal. unfold len in LP. lia.
Qed.

Lemma before_char_no_nul : forall s, no_nul s -> before_char 0 s = s.
Proof.
  unfold before_char. induction s as [|c s IH]; intro N; [reflexivity|]. cbn [take_while].
  replace (negb (c =? 0)) with true. 2: { assert (c <> 0) by (intros ->; apply N; now left). lia. }
  f_equal. apply IH. intro H. apply N. now right.
Qed.
Lemma before_char_app : forall s r, no_nul s -> before_char 0 (s ++ 0 :: r) = s.
Proof.
  unfold before_char. induction s as [|c s IH]; intros r N; [reflexivity|]. cbn [take_while app].
  replace (negb (c =? 0)) with true. 2: { assert (c <> 0) by (intros ->; apply N; now left). lia. }
  f_equal. apply IH. intro H. apply N. now right.
Qed.

(** The buffer after a string is stored in it. *)
Definition stored (buf v : bytes) : bytes := v ++ [0] ++ skipn (Z.to_nat (len v + 1)) buf.
Definition put (buf : bytes) (max : Z) (v : bytes) : res (option bytes) :=
  let w := firstn (Z.to_nat (max - 1)) v in if len w + 1 <=? len buf then Ok (Some (stored buf w)) else UB.
Lemma print_token_text : forall s t buf max, placed s t ->
  (b <- print_token buf max s t ;; Ok (Some b)) = put buf max (token_text s t).
Proof.
  intros s t buf max (R & L & N & _). unfold print_token, put.
  replace ((0 <=? t_start t) && (t_start t <=? t_end t) && (t_end t <=? len s)) with true by lia.
  unfold token_text. change (firstn (Z.to_nat (t_end t - t_start t)) (skipn (Z.to_nat (t_start t)) s)) with (piece s (t_start t) (t_end t)).
  rewrite before_char_no_nul by exact N. destruct (_ <=? _); reflexivity.
Qed.

(** The token [name] among [ts] and what follows it: [None] not found, [Some None] last. *)
Fixpoint find (s name : bytes) (ts : list tok) : option (option tok) :=
  match ts with
  | [] => None
  | t :: r => if jtype_eqb (t_type t) JSMN_STRING && beq (token_text s t) name then Some (hd_error r) else find s name r
  end.
Lemma said_find : forall s name ts, said s name ts = match find s name ts with None => None | Some None => Some [] | Some (Some n) => Some (token_text s n) end.
Proof. induction ts as [|t r IH]; [reflexivity|]. cbn [said find]. destruct (_ && _); [|exact IH]. now destruct r. Qed.
Lemma find_in : forall s name ts n, find s name ts = Some (Some n) -> In n ts.
Proof. induction ts as [|t r IH]; intros n H; [discriminate|]. cbn [find] in H. destruct (_ && _); [|right; auto]. destruct r; [discriminate|]. inversion H; subst. right. now left. Qed.

Lemma retrieve_spec : forall s name buf max ts cap, Forall (placed s) ts -> len ts <= cap -> 1 <= len buf ->
  retrieve_token_from_voucher s buf max (len ts) (ts ++ repeat tok0 (Z.to_nat (cap - len ts))) name =
  match find s name (tl ts) with
  | None => Ok None
  | Some None => if len ts <? cap then Ok (Some (stored buf [])) else UB
  | Some (Some n) => put buf max (token_text s n)
  end.
Proof.
  intros s name buf max ts cap F C B. unfold retrieve_token_from_voucher.
  set (arr := ts ++ repeat tok0 (Z.to_nat (cap - len ts))).
  assert (La : len arr = cap) by (unfold arr; rewrite len_app, len_repeat; lia).
  assert (H : forall r i, ts = firstn i ts ++ r -> (i <= length ts)%nat -> forall fuel, (length r <= fuel)%nat ->
    retrieve_loop fuel (Z.of_nat i) s buf max (len ts) arr name =
    match find s name r with
    | None => Ok None
    | Some None => if len ts <? cap then Ok (Some (stored buf [])) else UB
    | Some (Some n) => put buf max (token_text s n)
    end).
  { induction r as [|t r IH]; intros i E Li fuel Lf.
    - assert (length ts = i) by (rewrite E, app_nil_r, firstn_length; lia).
      destruct fuel; cbn [retrieve_loop find]; [reflexivity|]. replace (len ts <=? Z.of_nat i) with true by (unfold len; lia). reflexivity.
    - cbn [length] in Lf. destruct fuel as [|fuel]; [lia|]. cbn [retrieve_loop].
      assert (Ei : length (firstn i ts) = i) by (rewrite firstn_length; lia).
      assert (Lt : (length ts = i + S (length r))%nat) by (rewrite E at 1; rewrite app_length, Ei; reflexivity).
      replace (len ts <=? Z.of_nat i) with false by (unfold len; lia).
      assert (Ht : nth i arr tok0 = t).
      { unfold arr. rewrite app_nth1 by lia. rewrite E at 1. rewrite app_nth2 by lia. rewrite Ei, Nat.sub_diag. reflexivity. }
      unfold tok_at at 1. rewrite La, Nat2Z.id, Ht. replace ((0 <=? Z.of_nat i) && (Z.of_nat i <? cap)) with true by (unfold len in *; lia). cbn [bind].
      assert (Pt : placed s t). { rewrite Forall_forall in F. apply F. rewrite E. apply in_or_app. right. now left. }
      rewrite jsoneq_text by exact Pt. cbn [find]. destruct (_ && _).
      + unfold tok_at. rewrite La. destruct r as [|n r]; cbn [hd_error].
        * cbn [length] in Lt. destruct (len ts <? cap) eqn:Ec.
          -- replace ((0 <=? Z.of_nat i + 1) && (Z.of_nat i + 1 <? cap)) with true by (unfold len in *; lia). cbn [bind].
             replace (nth (Z.to_nat (Z.of_nat i + 1)) arr tok0) with tok0.
             2: { unfold arr. rewrite app_nth2 by lia. symmetry. apply nth_repeat. }
             cbn [tok0 t_type jtype_eqb]. rewrite wr_len. replace ((0 <=? 0) && (0 <? len buf)) with true by lia. cbn [bind].
             destruct buf; [cbn in B; lia|]. reflexivity.
          -- replace ((0 <=? Z.of_nat i + 1) && (Z.of_nat i + 1 <? cap)) with false by (unfold len in *; lia). reflexivity.
        * cbn [length] in Lt. replace ((0 <=? Z.of_nat i + 1) && (Z.of_nat i + 1 <? cap)) with true by (unfold len in *; lia). cbn [bind].
          assert (Hn : nth (Z.to_nat (Z.of_nat i + 1)) arr tok0 = n).
          { replace (Z.to_nat (Z.of_nat i + 1)) with (i + 1)%nat by lia. unfold arr. rewrite app_nth1 by lia. rewrite E at 1. rewrite app_nth2 by lia.
            rewrite Ei. replace (i + 1 - i)%nat with 1%nat by lia. reflexivity. }
          rewrite Hn. assert (Pn : placed s n). { rewrite Forall_forall in F. apply F. rewrite E. apply in_or_app. right. right. now left. }
          replace (jtype_eqb (t_type n) JSMN_UNDEFINED) with false. 2: { destruct Pn as (_ & _ & _ & Pn). destruct (t_type n); try reflexivity. contradiction. }
          now apply print_token_text.
      + replace (Z.of_nat i + 1) with (Z.of_nat (S i)) by lia. apply IH; [|lia|lia].
        replace (firstn (S i) ts) with (firstn i ts ++ [t]).
        * rewrite <- app_assoc. exact E.
        * rewrite E at 2. replace (S i) with (length (firstn i ts) + 1)%nat by lia. rewrite firstn_app_2. reflexivity. }
  destruct ts as [|t r]; [reflexivity|].
  change 1 with (Z.of_nat 1). apply H; [reflexivity|cbn; lia|]. cbn [tl]. unfold len. cbn [length]. lia.
Qed.

Lemma strnlen_stored : forall buf v max, no_nul v -> len v < max -> strnlen (stored buf v) max = len v.
Proof.
  intros buf v max N L. unfold strnlen, stored.
  replace (Z.to_nat max) with (length (v ++ [0%Z]) + (Z.to_nat max - length (v ++ [0%Z])))%nat by (rewrite app_length; cbn [length]; unfold len in L; lia).
  rewrite app_assoc, firstn_app_2. rewrite <- app_assoc. cbn [app]. now rewrite before_char_app.
Qed.
Lemma strnlen_long : forall buf v max, no_nul v -> 0 <= max <= len v -> strnlen (stored buf v) max = max.
Proof.
  intros buf v max N L. unfold strnlen, stored. rewrite firstn_app.
  replace (Z.to_nat max - length v)%nat with 0%nat by (unfold len in L; lia). cbn [firstn]. rewrite app_nil_r.
  rewrite before_char_no_nul; [rewrite len_firstn; lia|]. intro H. apply N. rewrite <- (firstn_skipn (Z.to_nat max) v). apply in_or_app. now left.
Qed.
Lemma no_nul_firstn : forall n s, no_nul s -> no_nul (firstn n s).
Proof. intros n s N H. apply N. rewrite <- (firstn_skipn n s). apply in_or_app. now left. Qed.

(** Two strings with their NULs agree as far as the second goes: they are equal. *)
Lemma prefix_nul : forall a b r, no_nul a -> no_nul b -> firstn (length b + 1) (a ++ 0 :: r) = b ++ [0] -> a = b.
Proof.
  induction a as [|x a IH]; intros [|y b] r A B H; cbn in H.
  - reflexivity.
  - inversion H. subst. exfalso. apply B. now left.
  - inversion H. subst. exfalso. apply A. now left.
  - inversion H. subst. f_equal. apply (IH b r).
    + intro I. apply A. now right.
    + intro I. apply B. now right.
    + exact H2.
Qed.

(** ** The checks *)
Lemma len_stored : forall buf v, len v + 1 <= len buf -> len (stored buf v) = len buf.
Proof. intros buf v L. unfold stored. rewrite !len_app, len_skipn. change (len [0]) with 1. pose proof (len_nonneg _ v). lia. Qed.
Lemma firstn_stored : forall buf v, firstn (length v + 1) (stored buf v) = v ++ [0].
Proof. intros. unfold stored. replace (v ++ [0] ++ skipn (Z.to_nat (len v + 1)) buf) with ((v ++ [0]) ++ skipn (Z.to_nat (len v + 1)) buf) by (now rewrite <- app_assoc).
  replace (length v + 1)%nat with (length (v ++ [0%Z]) + 0)%nat by (rewrite app_length; cbn; lia). rewrite firstn_app_2, firstn_O. apply app_nil_r. Qed.
Lemma firstn_all_z : forall n (v : bytes), len v <= n -> firstn (Z.to_nat n) v = v.
Proof. intros n v L. apply firstn_all2. unfold len in L. lia. Qed.

Definition nonce_check (sent b : bytes) : res (option est_error) :=
  if EST_BRSKI_VOUCHER_REQ_NONCE_SIZE <? strnlen b (EST_BRSKI_VOUCHER_REQ_NONCE_SIZE + 1) then Ok (Some EST_ERR_CLIENT_BRSKI_NONCE_TOO_LARGE)
  else same <- memcmp_eq sent b EST_BRSKI_VOUCHER_REQ_NONCE_SIZE ;;
       Ok (if same then None else Some EST_ERR_CLIENT_BRSKI_NONCE_MISMATCH).
Lemma nonce_check_spec : forall n nb v, len n = 32 -> no_nul n -> len nb = 34 -> no_nul v ->
  nonce_check (n ++ [0]) (stored nb (firstn 33 v)) =
  Ok (if beq v n then None else Some (if 32 <? len v then EST_ERR_CLIENT_BRSKI_NONCE_TOO_LARGE else EST_ERR_CLIENT_BRSKI_NONCE_MISMATCH)).
Proof.
  intros n nb v Ln Nn Lb Nv. unfold nonce_check, EST_BRSKI_VOUCHER_REQ_NONCE_SIZE. change (32 + 1) with 33.
  destruct (32 <? len v) eqn:E.
  - rewrite strnlen_long; [|now apply no_nul_firstn|change 33%nat with (Z.to_nat 33); rewrite len_firstn; lia].
    change (32 <? 33) with true. cbv iota. replace (beq v n) with false; [reflexivity|].
    symmetry. apply not_true_is_false. rewrite beq_eq. intros ->. lia.
  - change 33%nat with (Z.to_nat 33). rewrite firstn_all_z by lia. rewrite strnlen_stored; [|exact Nv|lia].
    replace (32 <? len v) with false by lia. unfold memcmp_eq. rewrite len_stored by lia. rewrite len_app. change (len [0]) with 1.
    replace ((32 <=? len n + 1) && (32 <=? len nb)) with true by lia. cbn [bind].
    replace (firstn (Z.to_nat 32) (n ++ [0])) with n.
    2: { replace (Z.to_nat 32) with (length n + 0)%nat by (unfold len in Ln; lia). now rewrite firstn_app_2, firstn_O, app_nil_r. }
    do 2 f_equal. apply eq_true_iff_eq || idtac.
    replace (beq n (firstn (Z.to_nat 32) (stored nb v))) with (beq v n); [reflexivity|].
    apply eq_true_iff_eq. rewrite !beq_eq. split.
    + intros ->. unfold stored. replace (Z.to_nat 32) with (length n + 0)%nat by (unfold len in Ln; lia). now rewrite firstn_app_2, firstn_O, app_nil_r.
    + intro H. destruct (Z.eq_dec (len v) 32) as [Lv|Lv].
      * rewrite H. unfold stored. replace (Z.to_nat 32) with (length v + 0)%nat by (unfold len in Lv; lia). now rewrite firstn_app_2, firstn_O, app_nil_r.
      * exfalso. apply Nn. rewrite H. unfold stored.
        replace (Z.to_nat 32) with (length v + S (31 - length v))%nat by (unfold len in *; lia). rewrite firstn_app_2. apply in_or_app. right. cbn. now left.
Qed.
Lemma serial_check_spec : forall s sb v, no_nul s -> no_nul v -> len v + 1 <= len sb ->
  memcmp_eq (s ++ [0]) (stored sb v) (len v + 1) = if len v <=? len s then Ok (beq v s) else UB.
Proof.
  intros s sb v Ns Nv L. unfold memcmp_eq. rewrite len_stored by exact L. rewrite len_app. change (len [0]) with 1.
  destruct (len v <=? len s) eqn:E.
  - replace ((len v + 1 <=? len s + 1) && (len v + 1 <=? len sb)) with true by lia. f_equal.
    replace (Z.to_nat (len v + 1)) with (length v + 1)%nat by (unfold len; lia). rewrite firstn_stored. apply eq_true_iff_eq. rewrite !beq_eq. split.
    + intro H. symmetry. exact (prefix_nul s v [] Ns Nv H).
    + intros ->. apply firstn_all2. rewrite app_length. cbn. lia.
  - replace ((len v + 1 <=? len s + 1) && (len v + 1 <=? len sb)) with false by lia. reflexivity.
Qed.

Section Voucher.
Variable pkcs7 : Type.
Variable d2i_PKCS7 : bytes -> option pkcs7.
Variable PKCS7_verify : pkcs7 -> Z.
Variable pkcs7_data : pkcs7 -> bytes.
Variable verify_cacert_resp : bytes -> est_error * bytes.
Variable trust_store : bool.
Notation parse_voucher := (brski_parse_voucher pkcs7 d2i_PKCS7 PKCS7_verify pkcs7_data verify_cacert_resp trust_store).

(** A token's text has no NUL. *)
Lemma text_nul : forall s ts t, Forall (placed s) ts -> In t ts -> no_nul (token_text s t).
Proof. intros s ts t F I. rewrite Forall_forall in F. apply (F t I). Qed.
Lemma said_nul : forall s ts name v, Forall (placed s) ts -> said s name (tl ts) = Some v -> no_nul v.
Proof.
  intros s ts name v F H. rewrite said_find in H. destruct (find s name (tl ts)) as [[n|]|] eqn:E; inversion H; subst.
  - apply (text_nul s ts); [exact F|]. apply find_in in E. destruct ts; [destruct E|now right].
  - intros [].
Qed.

(** What the document says, or whether asking goes wrong (the name is the
    last of 100 tokens). *)
Definition ask (s name : bytes) (ts : list tok) : res (option bytes) :=
  match find s name (tl ts) with
  | Some None => if len ts <? 100 then Ok (Some []) else UB
  | Some (Some n) => Ok (Some (token_text s n))
  | None => Ok None
  end.
Lemma ask_said : forall s name ts r, ask s name ts = Ok r -> r = said s name (tl ts).
Proof. intros s name ts r H. unfold ask in H. rewrite said_find. destruct (find s name (tl ts)) as [[n|]|]; [|destruct (_ <? _)|]; congruence. Qed.
Lemma ask_ok : forall s name ts, len ts < 100 -> ask s name ts = Ok (said s name (tl ts)).
Proof. intros s name ts L. unfold ask. rewrite said_find. destruct (find s name (tl ts)) as [[n|]|]; try reflexivity. now replace (len ts <? 100) with true by lia. Qed.
Lemma retrieve_ask : forall s name buf max ts, Forall (placed s) ts -> len ts <= 100 -> 1 <= len buf -> 1 <= max ->
  retrieve_token_from_voucher s buf max (len ts) (ts ++ repeat tok0 (Z.to_nat (100 - len ts))) name =
  (r <- ask s name ts ;; match r with None => Ok None | Some v => put buf max v end).
Proof.
  intros s name buf max ts F L B M. rewrite retrieve_spec by assumption. unfold ask. destruct (find s name (tl ts)) as [[n|]|]; try reflexivity.
  destruct (len ts <? 100); [|reflexivity]. cbn [bind]. unfold put. rewrite firstn_nil. change (len (@nil Z)) with 0. now replace (0 + 1 <=? len buf) with true by lia.
Qed.

(** The decision on a document with tokens [ts]. *)
Definition decide (doc : bytes) (ts : list tok) (nonce serial : bytes) (cacert : option bytes) : res (est_error * Z * option bytes) :=
  n <- ask doc (str "nonce") ts ;;
  match match n with
        | Some v => if beq v nonce then None else Some (if 32 <? len v then EST_ERR_CLIENT_BRSKI_NONCE_TOO_LARGE else EST_ERR_CLIENT_BRSKI_NONCE_MISMATCH)
        | None => None
        end with
  | Some e => Ok (e, 0, cacert)
  | None =>
    s <- ask doc (str "serial-number") ts ;;
    match s with
    | None => Ok (EST_ERR_CLIENT_BRSKI_SERIAL_NUM_MISSING, 0, cacert)
    | Some v =>
      if 64 <? len v then Ok (EST_ERR_CLIENT_BRSKI_SERIAL_NUM_TOO_LARGE, 0, cacert)
      else if len serial <? len v then UB
      else if beq v serial then
        c <- ask doc (str "pinned-domain-cert") ts ;;
        match c with
        | None => Ok (EST_ERR_NO_CERT, 0, cacert)
        | Some v => if len v <? 8192 then
                      let '(rv, t) := verify_cacert_resp v in
                      if err_eqb rv EST_ERR_NONE then Ok (EST_ERR_NONE, 0, Some t) else Ok (rv, 0, None)
                    else UB
        end
      else Ok (EST_ERR_CLIENT_BRSKI_SERIAL_NUM_MISMATCH, 0, cacert)
    end
  end.

Lemma put_fits : forall buf max v, len buf = max -> put buf max v = Ok (Some (stored buf (firstn (Z.to_nat (max - 1)) v))) \/ max < 1.
Proof.
  intros buf max v L. destruct (Z_lt_le_dec max 1) as [M|M]; [now right|left]. unfold put.
  replace (_ <=? len buf) with true by (rewrite len_firstn; pose proof (len_nonneg _ v); lia). reflexivity.
Qed.

Lemma decide_spec : forall voucher p r q n serial nb sb cb cacert,
  d2i_PKCS7 voucher = Some p -> trust_store = true -> PKCS7_verify p <> 0 ->
  jsmn_parse jsmn_init (pkcs7_data p) (len (pkcs7_data p)) (Some 100) = Ok (r, q) ->
  len n = 32 -> no_nul n -> no_nul serial -> len nb = 34 -> len sb = 66 -> len cb = 8192 ->
  parse_voucher voucher (serial ++ [0]) (n ++ [0]) nb sb cb cacert =
  if r <? 0 then Ok (EST_ERR_MALLOC, 0, cacert) else decide (pkcs7_data p) (p_toks q) n serial cacert.
Proof.
  intros voucher p r q n serial nb sb cb cacert Cr Tr Ve Pa Ln Nn Ns Lnb Lsb Lcb.
  unfold brski_parse_voucher, verify_voucher. rewrite Cr, Tr. replace (PKCS7_verify p =? 0) with false by lia.
  set (doc := pkcs7_data p) in *. unfold tokcount. rewrite Pa. cbn [bind].
  destruct (parse_outcome doc (len doc) 100 ltac:(pose proof (len_nonneg _ doc); lia) ltac:(lia)) as (r' & q' & Pa' & Lq & _ & O).
  rewrite Pa in Pa'. inversion Pa'; subst r' q'. clear Pa'.
  destruct (r <? 0) eqn:R; [reflexivity|].
  destruct O as [O|(Er & F & _)]; [exfalso; cbn in O; unfold JSMN_ERROR_NOMEM, JSMN_ERROR_INVAL, JSMN_ERROR_PART in O; lia|].
  replace (firstn (Z.to_nat (len doc)) doc) with doc in F by (symmetry; now apply firstn_all_z).
  subst r. set (ts := p_toks q) in *.
  assert (Nul : forall name v, ask doc name ts = Ok (Some v) -> no_nul v).
  { intros name v A. apply ask_said in A. symmetry in A. exact (said_nul doc ts name v F A). }
  unfold decide, EST_BRSKI_VOUCHER_REQ_NONCE_SIZE, EST_BRSKI_MAX_SER_NUM_LEN, EST_BRSKI_MAX_CACERT_LEN.
  rewrite !retrieve_ask by (try assumption; lia).
  destruct (ask doc (str "nonce") ts) as [vn|] eqn:An; cbn [bind]; [|reflexivity].
  assert (Hn : (r <- match vn with None => Ok None | Some v => put nb (32 + 2) v end ;;
                match r with None => Ok None | Some b => nonce_check (n ++ [0]) b end)
               = Ok (match vn with
                     | Some v => if beq v n then None else Some (if 32 <? len v then EST_ERR_CLIENT_BRSKI_NONCE_TOO_LARGE else EST_ERR_CLIENT_BRSKI_NONCE_MISMATCH)
                     | None => None end)).
  { destruct vn as [v|]; cbn [bind]; [|reflexivity]. destruct (put_fits nb (32 + 2) v) as [Hp|Hp]; [lia| |lia]. rewrite Hp. cbn [bind].
    apply (nonce_check_spec n nb v Ln Nn Lnb). exact (Nul _ _ An). }
  set (vr := match vn with None => Ok None | Some v => put nb (32 + 2) v end) in *.
  destruct vr as [vb|]; cbn [bind] in *; [|discriminate Hn].
  unfold nonce_check, EST_BRSKI_VOUCHER_REQ_NONCE_SIZE in Hn. rewrite Hn. cbn [bind]. clear Hn vb.
  set (vd := match vn with Some v => _ | None => None end). destruct vd as [e|]; [reflexivity|].
  destruct (ask doc (str "serial-number") ts) as [vs|] eqn:As; cbn [bind]; [|reflexivity].
  destruct vs as [v|]; cbn [bind]; [|reflexivity]. pose proof (Nul _ _ As) as Nv.
  destruct (put_fits sb (64 + 2) v) as [Hp|Hp]; [lia| |lia]. rewrite Hp. cbn [bind]. clear Hp. change (64 + 2 - 1) with 65. change (64 + 1) with 65.
  destruct (64 <? len v) eqn:L64.
  { rewrite strnlen_long; [|now apply no_nul_firstn|rewrite len_firstn; lia]. reflexivity. }
  rewrite firstn_all_z by lia. rewrite strnlen_stored by (try assumption; lia). rewrite L64.
  rewrite serial_check_spec by (try assumption; lia).
  destruct (len v <=? len serial) eqn:Lv; [|replace (len serial <? len v) with true by lia; reflexivity].
  replace (len serial <? len v) with false by lia. cbn [bind]. destruct (beq v serial); [|reflexivity].
  destruct (ask doc (str "pinned-domain-cert") ts) as [vc|] eqn:Ac; cbn [bind]; [|reflexivity].
  destruct vc as [w|]; cbn [bind]; [|reflexivity]. pose proof (Nul _ _ Ac) as Nw.
  unfold put. change (8192 + 1 - 1) with 8192.
  destruct (len w <? 8192) eqn:Lw.
  - replace (_ <=? len cb) with true by (rewrite len_firstn; lia). cbn [bind]. rewrite (firstn_all_z 8192 w) by lia.
    assert (Hs : before_char 0 (firstn (Z.to_nat 8192) (stored cb w)) = w).
    { rewrite firstn_all_z by (rewrite len_stored; lia). unfold stored. cbn [app]. now apply before_char_app. }
    rewrite Hs. reflexivity.
  - replace (_ <=? len cb) with false by (rewrite len_firstn; lia). reflexivity.
Qed.

(** ** Acceptance *)
Definition accepts (doc : bytes) (n serial : bytes) (t : bytes) : Prop :=
  exists q cert,
    jsmn_parse jsmn_init doc (len doc) (Some 100) = Ok (len (p_toks q), q)
    /\ (said doc (str "nonce") (tl (p_toks q)) = None \/ said doc (str "nonce") (tl (p_toks q)) = Some n)
    /\ said doc (str "serial-number") (tl (p_toks q)) = Some serial
    /\ said doc (str "pinned-domain-cert") (tl (p_toks q)) = Some cert
    /\ verify_cacert_resp cert = (EST_ERR_NONE, t).

Lemma decide_accept : forall doc q n serial cacert l ca,
  decide doc (p_toks q) n serial cacert = Ok (EST_ERR_NONE, l, ca) ->
  l = 0 /\ exists cert t, (said doc (str "nonce") (tl (p_toks q)) = None \/ said doc (str "nonce") (tl (p_toks q)) = Some n)
    /\ said doc (str "serial-number") (tl (p_toks q)) = Some serial
    /\ said doc (str "pinned-domain-cert") (tl (p_toks q)) = Some cert
    /\ verify_cacert_resp cert = (EST_ERR_NONE, t) /\ ca = Some t.
Proof.
  intros doc q n serial cacert l ca H. unfold decide in H. set (ts := p_toks q) in *.
  destruct (ask doc (str "nonce") ts) as [vn|] eqn:An; cbn [bind] in H; [|discriminate]. apply ask_said in An.
  assert (Hn : vn = None \/ vn = Some n).
  { destruct vn as [v|]; [|now left]. right. destruct (beq v n) eqn:B; [apply beq_eq in B; now subst|]. exfalso. destruct (32 <? len v); inversion H. }
  assert (H2 : (s <- ask doc (str "serial-number") ts ;;
    match s with
    | None => Ok (EST_ERR_CLIENT_BRSKI_SERIAL_NUM_MISSING, 0, cacert)
    | Some v =>
      if 64 <? len v then Ok (EST_ERR_CLIENT_BRSKI_SERIAL_NUM_TOO_LARGE, 0, cacert)
      else if len serial <? len v then UB
      else if beq v serial then
        c <- ask doc (str "pinned-domain-cert") ts ;;
        match c with
        | None => Ok (EST_ERR_NO_CERT, 0, cacert)
        | Some v => if len v <? 8192 then
                      let '(rv, t) := verify_cacert_resp v in
                      if err_eqb rv EST_ERR_NONE then Ok (EST_ERR_NONE, 0, Some t) else Ok (rv, 0, None)
                    else UB
        end
      else Ok (EST_ERR_CLIENT_BRSKI_SERIAL_NUM_MISMATCH, 0, cacert)
    end) = Ok (EST_ERR_NONE, l, ca)).
  { destruct Hn as [->| ->]; [exact H|]. replace (beq n n) with true in H by (symmetry; now apply beq_eq). exact H. }
  clear H. rewrite An in Hn. clear vn An.
  destruct (ask doc (str "serial-number") ts) as [vs|] eqn:As; cbn [bind] in H2; [|discriminate]. apply ask_said in As.
  destruct vs as [v|]; [|inversion H2]. destruct (64 <? len v); [inversion H2|]. destruct (len serial <? len v); [discriminate|].
  destruct (beq v serial) eqn:B; [|inversion H2]. apply beq_eq in B. subst v.
  destruct (ask doc (str "pinned-domain-cert") ts) as [vc|] eqn:Ac; cbn [bind] in H2; [|discriminate]. apply ask_said in Ac.
  destruct vc as [w|]; [|inversion H2]. destruct (len w <? 8192); [|discriminate].
  destruct (verify_cacert_resp w) as [rv t] eqn:V. destruct (err_eqb rv EST_ERR_NONE) eqn:E.
  - apply err_eqb_eq in E. subst rv. inversion H2; subst. split; [reflexivity|]. exists w, t. auto.
  - inversion H2. subst rv. discriminate E.
Qed.
Lemma accept_decide : forall doc q n serial cacert cert t, len (p_toks q) < 100 -> len serial <= 64 -> len cert < 8192 ->
  (said doc (str "nonce") (tl (p_toks q)) = None \/ said doc (str "nonce") (tl (p_toks q)) = Some n) ->
  said doc (str "serial-number") (tl (p_toks q)) = Some serial ->
  said doc (str "pinned-domain-cert") (tl (p_toks q)) = Some cert ->
  verify_cacert_resp cert = (EST_ERR_NONE, t) ->
  decide doc (p_toks q) n serial cacert = Ok (EST_ERR_NONE, 0, Some t).
Proof.
  intros doc q n serial cacert cert t L Ls Lc Hn Hs Hc V. unfold decide. rewrite !ask_ok by exact L. rewrite Hs, Hc. cbn [bind].
  assert (Bn : forall x, beq x x = true) by (intro; now apply beq_eq).
  replace (match said doc (str "nonce") (tl (p_toks q)) with Some v => if beq v n then None else Some (if 32 <? len v then EST_ERR_CLIENT_BRSKI_NONCE_TOO_LARGE else EST_ERR_CLIENT_BRSKI_NONCE_MISMATCH) | None => None end) with (@None est_error).
  2: { destruct Hn as [->| ->]; [reflexivity|]. now rewrite Bn. }
  replace (64 <? len serial) with false by lia. replace (len serial <? len serial) with false by lia. rewrite Bn.
  replace (len cert <? 8192) with true by lia. rewrite V. reflexivity.
Qed.

Theorem parse_voucher_accepts : forall voucher n serial nb sb cb cacert l ca,
  len n = 32 -> no_nul n -> no_nul serial -> len nb = 34 -> len sb = 66 -> len cb = 8192 ->
  parse_voucher voucher (serial ++ [0]) (n ++ [0]) nb sb cb cacert = Ok (EST_ERR_NONE, l, ca) ->
  l = 0 /\ exists p t, d2i_PKCS7 voucher = Some p /\ trust_store = true /\ PKCS7_verify p <> 0 /\ accepts (pkcs7_data p) n serial t /\ ca = Some t.
Proof.
  intros voucher n serial nb sb cb cacert l ca Ln Nn Ns Lnb Lsb Lcb H.
  destruct (d2i_PKCS7 voucher) as [p|] eqn:D.
  2: { unfold brski_parse_voucher, verify_voucher in H. rewrite D in H. inversion H. }
  destruct (bool_dec trust_store true) as [T|T]; [|apply not_true_is_false in T].
  2: { unfold brski_parse_voucher, verify_voucher in H. rewrite D, T in H; inversion H. }
  destruct (Z.eq_dec (PKCS7_verify p) 0) as [V|V].
  { unfold brski_parse_voucher, verify_voucher in H. rewrite D, T, V in H; inversion H. }
  set (doc := pkcs7_data p).
  destruct (parse_outcome doc (len doc) 100 ltac:(pose proof (len_nonneg _ doc); lia) ltac:(lia)) as (r & q & Pa & Lq & _ & O).
  rewrite (decide_spec voucher p r q) in H by assumption. destruct (r <? 0) eqn:R; [inversion H|].
  destruct O as [O|(Er & _)]; [exfalso; cbn in O; unfold JSMN_ERROR_NOMEM, JSMN_ERROR_INVAL, JSMN_ERROR_PART in O; lia|]. subst r.
  apply decide_accept in H as (-> & cert & t & Hn & Hs & Hc & Hv & ->). split; [reflexivity|]. exists p, t.
  repeat split; auto. exists q, cert. auto.
Qed.
Theorem accepts_parse_voucher : forall voucher p n serial nb sb cb cacert t,
  len n = 32 -> no_nul n -> no_nul serial -> len nb = 34 -> len sb = 66 -> len cb = 8192 -> len serial <= 64 ->
  d2i_PKCS7 voucher = Some p -> trust_store = true -> PKCS7_verify p <> 0 ->
  (exists q cert, jsmn_parse jsmn_init (pkcs7_data p) (len (pkcs7_data p)) (Some 100) = Ok (len (p_toks q), q) /\ len (p_toks q) < 100 /\ len cert < 8192
    /\ (said (pkcs7_data p) (str "nonce") (tl (p_toks q)) = None \/ said (pkcs7_data p) (str "nonce") (tl (p_toks q)) = Some n)
    /\ said (pkcs7_data p) (str "serial-number") (tl (p_toks q)) = Some serial
    /\ said (pkcs7_data p) (str "pinned-domain-cert") (tl (p_toks q)) = Some cert
    /\ verify_cacert_resp cert = (EST_ERR_NONE, t)) ->
  parse_voucher voucher (serial ++ [0]) (n ++ [0]) nb sb cb cacert = Ok (EST_ERR_NONE, 0, Some t).
Proof.
  intros voucher p n serial nb sb cb cacert t Ln Nn Ns Lnb Lsb Lcb Ls D T V (q & cert & Pa & Lq & Lc & Hn & Hs & Hc & Hv).
  rewrite (decide_spec voucher p _ q _ _ _ _ _ _ D T V Pa) by assumption.
  replace (len (p_toks q) <? 0) with false by (pose proof (len_nonneg _ (p_toks q)); lia).
  now apply (accept_decide _ _ _ _ _ cert).
Qed.

Theorem parse_voucher_safe : forall voucher n serial nb sb cb cacert,
  len n = 32 -> no_nul n -> no_nul serial -> len nb = 34 -> len sb = 66 -> len cb = 8192 ->
  (forall p r q, d2i_PKCS7 voucher = Some p -> jsmn_parse jsmn_init (pkcs7_data p) (len (pkcs7_data p)) (Some 100) = Ok (r, q) ->
     len (p_toks q) < 100
     /\ (forall v, said (pkcs7_data p) (str "serial-number") (tl (p_toks q)) = Some v -> len v <= len serial \/ 64 < len v)
     /\ (forall v, said (pkcs7_data p) (str "pinned-domain-cert") (tl (p_toks q)) = Some v -> len v < 8192)) ->
  is_ok (parse_voucher voucher (serial ++ [0]) (n ++ [0]) nb sb cb cacert).
Proof.
  intros voucher n serial nb sb cb cacert Ln Nn Ns Lnb Lsb Lcb Hyp.
  destruct (d2i_PKCS7 voucher) as [p|] eqn:D.
  2: { unfold brski_parse_voucher, verify_voucher. rewrite D. now eexists. }
  destruct (bool_dec trust_store true) as [T|T]; [|apply not_true_is_false in T].
  2: { unfold brski_parse_voucher, verify_voucher. rewrite D, T. now eexists. }
  destruct (Z.eq_dec (PKCS7_verify p) 0) as [V|V].
  { unfold brski_parse_voucher, verify_voucher. rewrite D, T, V. now eexists. }
  set (doc := pkcs7_data p).
  destruct (parse_outcome doc (len doc) 100 ltac:(pose proof (len_nonneg _ doc); lia) ltac:(lia)) as (r & q & Pa & Lq & _ & O).
  rewrite (decide_spec voucher p r q) by assumption. destruct (r <? 0) eqn:R; [now eexists|].
  destruct (Hyp p r q eq_refl Pa) as (L & Hs & Hc). fold doc in Hs, Hc.
  fold doc. unfold decide. rewrite !ask_ok by exact L. cbn [bind].
  destruct (match said doc (str "nonce") (tl (p_toks q)) with Some v => _ | None => None end); [now eexists|].
  destruct (said doc (str "serial-number") (tl (p_toks q))) as [v|]; [|now eexists].
  destruct (64 <? len v) eqn:L64; [now eexists|]. destruct (Hs v eq_refl) as [K|K]; [|lia].
  replace (len serial <? len v) with false by lia. destruct (beq v serial); [|now eexists].
  destruct (said doc (str "pinned-domain-cert") (tl (p_toks q))) as [w|]; [|now eexists].
  pose proof (Hc w eq_refl). replace (len w <? 8192) with true by lia. destruct (verify_cacert_resp w) as [rv t].
  destruct (err_eqb rv EST_ERR_NONE); now eexists.
Qed.
Theorem long_cert_ub : forall voucher p q n serial nb sb cb cacert cert,
  len n = 32 -> no_nul n -> no_nul serial -> len nb = 34 -> len sb = 66 -> len cb = 8192 -> len serial <= 64 ->
  d2i_PKCS7 voucher = Some p -> trust_store = true -> PKCS7_verify p <> 0 ->
  jsmn_parse jsmn_init (pkcs7_data p) (len (pkcs7_data p)) (Some 100) = Ok (len (p_toks q), q) -> len (p_toks q) < 100 ->
  said (pkcs7_data p) (str "nonce") (tl (p_toks q)) = None ->
  said (pkcs7_data p) (str "serial-number") (tl (p_toks q)) = Some serial ->
  said (pkcs7_data p) (str "pinned-domain-cert") (tl (p_toks q)) = Some cert -> 8192 <= len cert ->
  parse_voucher voucher (serial ++ [0]) (n ++ [0]) nb sb cb cacert = UB.
Proof.
  intros voucher p q n serial nb sb cb cacert cert Ln Nn Ns Lnb Lsb Lcb Ls D T V Pa Lq Hn Hs Hc Lc.
  rewrite (decide_spec voucher p _ q _ _ _ _ _ _ D T V Pa) by assumption.
  replace (len (p_toks q) <? 0) with false by (pose proof (len_nonneg _ (p_toks q)); lia).
  unfold decide. rewrite !ask_ok by exact Lq. rewrite Hn, Hs, Hc. cbn [bind].
  replace (64 <? len serial) with false by lia. replace (len serial <? len serial) with false by lia.
  replace (beq serial serial) with true by (symmetry; now apply beq_eq). replace (len cert <? 8192) with false by lia. reflexivity.
Qed.

(** ** Vouchers as they are written *)
Lemma said_members : forall name ms s pre f n rest, simple ms -> not_a_value name ms -> s = pre ++ members_text f ms ++ rest -> len pre = n ->
  said s name (members_tokens f ms n) = member name ms.
Proof.
  intros name ms. induction ms as [|w1 key w2 w3 v w4 l IH]; intros s pre f n rest S N E L; [reflexivity|].
  cbn [members_text members_tokens member] in *.
  set (a := n + (if f then 0 else 1) + len w1). set (b := a + 2 + len key + len w2 + 1 + len w3).
  set (first := if f then [] else [44]) in *.
  assert (Lf : len first = if f then 0 else 1) by (unfold first; destruct f; reflexivity).
  assert (E1 : s = (pre ++ first ++ w1 ++ [34]) ++ key ++ [34] ++ w2 ++ [58] ++ w3 ++ text v ++ w4 ++ members_text false l ++ rest) by (rewrite E, <- !app_assoc; reflexivity).
  assert (E2 : s = (pre ++ first ++ w1 ++ [34] ++ key ++ [34] ++ w2 ++ [58] ++ w3) ++ text v ++ w4 ++ members_text false l ++ rest) by (rewrite E, <- !app_assoc; reflexivity).
  assert (E3 : s = (pre ++ first ++ w1 ++ [34] ++ key ++ [34] ++ w2 ++ [58] ++ w3 ++ text v ++ w4) ++ members_text false l ++ rest) by (rewrite E, <- !app_assoc; reflexivity).
  assert (Pk : piece s (a + 1) (a + 1 + len key) = key).
  { rewrite E1. apply piece_mid; [|reflexivity]. rewrite !len_app, Lf. change (len [34]) with 1. unfold a. lia. }
  assert (Pb : len (pre ++ first ++ w1 ++ [34] ++ key ++ [34] ++ w2 ++ [58] ++ w3) = b).
  { rewrite !len_app, Lf. change (len [34]) with 1. change (len [58]) with 1. unfold b, a. lia. }
  assert (IH' : said s name (members_tokens false l (b + len (text v) + len w4)) = member name l).
  { apply (IH s (pre ++ first ++ w1 ++ [34] ++ key ++ [34] ++ w2 ++ [58] ++ w3 ++ text v ++ w4) false _ rest).
    - destruct v; try contradiction; exact S.
    - apply N.
    - exact E3.
    - rewrite <- Pb. rewrite !len_app. lia. }
  cbn [said]. unfold token_text at 1. cbn [token t_type t_start t_end jtype_eqb andb]. rewrite Pk.
  destruct v as [t|t|w i|w i]; try contradiction; cbn [tokens app].
  - destruct (beq key name); cbn [text] in *.
    + unfold token_text. cbn [token t_start t_end]. f_equal. rewrite E2. now apply piece_mid.
    + exact IH'.
  - destruct (beq key name); cbn [text] in *.
    + unfold token_text. cbn [token t_start t_end]. f_equal.
      assert (E4 : s = ((pre ++ first ++ w1 ++ [34] ++ key ++ [34] ++ w2 ++ [58] ++ w3) ++ [34]) ++ t ++ [34] ++ w4 ++ members_text false l ++ rest) by (rewrite E2, <- !app_assoc; reflexivity).
      rewrite E4. apply piece_mid; [|reflexivity]. rewrite len_app, Pb. reflexivity.
    + cbn [said]. unfold token_text at 1. cbn [token t_type t_start t_end jtype_eqb andb].
      assert (E4 : s = ((pre ++ first ++ w1 ++ [34] ++ key ++ [34] ++ w2 ++ [58] ++ w3) ++ [34]) ++ t ++ [34] ++ w4 ++ members_text false l ++ rest) by (rewrite E2, <- !app_assoc; reflexivity).
      replace (piece s (b + 1) (b + 1 + len t)) with t.
      2: { rewrite E4. symmetry. apply piece_mid; [|reflexivity]. rewrite len_app, Pb. reflexivity. }
      replace (beq t name) with false. 2: { symmetry. apply not_true_is_false. rewrite beq_eq. apply N. }
      exact IH'.
Qed.
Lemma said_voucher : forall name outer ms, simple ms -> not_a_value name ms -> outer <> name ->
  forall w1 w2, said (w1 ++ text (voucher outer ms) ++ w2) name (tl (tokens (voucher outer ms) (len w1))) = member name ms.
Proof.
  intros name outer ms S N O w1 w2. unfold voucher. cbn [tokens tl members_tokens].
  set (s := w1 ++ _ ++ w2). change (len (@nil Z)) with 0. rewrite app_nil_r.
  set (rest := [125; 125] ++ w2 : bytes).
  assert (E : s = (w1 ++ [123; 34]) ++ outer ++ [34; 58; 123] ++ members_text true ms ++ rest).
  { unfold s, rest. cbn [text members_text app]. rewrite <- !app_assoc. cbn [app]. rewrite <- !app_assoc. reflexivity. }
  cbn [said]. unfold token_text at 1. cbn [token t_type t_start t_end jtype_eqb andb].
  replace (piece s _ _) with outer.
  2: { rewrite E. symmetry. apply piece_mid; [|lia]. rewrite len_app. change (len [123; 34]) with 2. lia. }
  replace (beq outer name) with false by (symmetry; apply not_true_is_false; rewrite beq_eq; exact O).
  apply (said_members name ms s (w1 ++ [123; 34] ++ outer ++ [34; 58; 123]) true _ rest S N).
  - rewrite E, <- !app_assoc. reflexivity.
  - rewrite !len_app. change (len [123; 34]) with 2. change (len [34; 58; 123]) with 3. lia.
Qed.

Lemma tokens_len : (forall v a b, len (tokens v a) = len (tokens v b))
  /\ (forall l f a b, len (items_tokens f l a) = len (items_tokens f l b))
  /\ (forall l f a b, len (members_tokens f l a) = len (members_tokens f l b)).
Proof.
  apply json_all.
  - reflexivity.
  - reflexivity.
  - intros w l IH a b. cbn [tokens]. rewrite !len_cons. f_equal. apply IH.
  - intros w l IH a b. cbn [tokens]. rewrite !len_cons. f_equal. apply IH.
  - reflexivity.
  - intros w1 v IHv w2 l IHl f a b. cbn [items_tokens]. rewrite !len_app. f_equal; [apply IHv|apply IHl].
  - reflexivity.
  - intros w1 k w2 w3 v IHv w4 l IHl f a b. cbn [members_tokens]. rewrite !len_cons, !len_app. f_equal. f_equal; [apply IHv|apply IHl].
Qed.
Theorem document_accepted : forall vo p n serial nb sb cb cacert w1 w2 outer ms,
  len n = 32 -> no_nul n -> no_nul serial -> len nb = 34 -> len sb = 66 -> len cb = 8192 -> len serial <= 64 ->
  d2i_PKCS7 vo = Some p -> trust_store = true -> PKCS7_verify p <> 0 ->
  pkcs7_data p = w1 ++ text (voucher outer ms) ++ w2 -> ws w1 -> ws w2 -> valid (voucher outer ms) -> simple ms ->
  len (tokens (voucher outer ms) 0) < 100 ->
  (forall name, In name [str "nonce"; str "serial-number"; str "pinned-domain-cert"] -> outer <> name /\ not_a_value name ms) ->
  (forall cert, member (str "pinned-domain-cert") ms = Some cert -> len cert < 8192) ->
  forall l ca, parse_voucher vo (serial ++ [0]) (n ++ [0]) nb sb cb cacert = Ok (EST_ERR_NONE, l, ca) <->
  l = 0 /\ member (str "serial-number") ms = Some serial
  /\ (member (str "nonce") ms = None \/ member (str "nonce") ms = Some n)
  /\ exists cert t, member (str "pinned-domain-cert") ms = Some cert /\ verify_cacert_resp cert = (EST_ERR_NONE, t) /\ ca = Some t.
Proof.
  intros vo p n serial nb sb cb cacert w1 w2 outer ms Ln Nn Ns Lnb Lsb Lcb Ls D T V Do W1 W2 Va Si Lt O C l ca.
  destruct (parse_json w1 (voucher outer ms) w2 100 W1 Va W2 ltac:(lia)) as [P _]. rewrite <- Do in P.
  assert (Lt' : len (tokens (voucher outer ms) (len w1)) = len (tokens (voucher outer ms) 0)) by apply tokens_len.
  destruct (P ltac:(lia)) as [sup Pa]. clear P.
  assert (Sa : forall name, In name [str "nonce"; str "serial-number"; str "pinned-domain-cert"] ->
    said (pkcs7_data p) name (tl (tokens (voucher outer ms) (len w1))) = member name ms).
  { intros name I. destruct (O _ I). rewrite Do. now apply said_voucher. }
  split.
  - intro H. destruct (parse_voucher_accepts _ _ _ _ _ _ _ _ _ Ln Nn Ns Lnb Lsb Lcb H) as (-> & p' & t & D' & _ & _ & (q & cert & Pa' & Hn & Hs & Hc & Hv) & ->).
    assert (p' = p) by congruence. subst p'. rewrite Pa in Pa'. injection Pa' as _ <-. cbn [p_toks] in *.
    rewrite Sa in Hn, Hs, Hc by (cbn; tauto). split; [reflexivity|]. split; [exact Hs|]. split; [exact Hn|]. exists cert, t. auto.
  - intros (-> & Hs & Hn & cert & t & Hc & Hv & ->).
    apply (accepts_parse_voucher vo p); try assumption. exists {| p_pos := len (pkcs7_data p); p_super := sup; p_toks := tokens (voucher outer ms) (len w1) |}, cert. split; [exact Pa|]. cbn [p_toks].
    rewrite !Sa by (cbn; tauto). split; [lia|]. split; [now apply C|]. auto.
Qed.

(** ** Requests for a voucher *)
Notation send_get_voucher := (est_client_brski_send_get_voucher pkcs7 d2i_PKCS7 PKCS7_verify pkcs7_data verify_cacert_resp trust_store).
Notation get_voucher := (est_client_brski_get_voucher pkcs7 d2i_PKCS7 PKCS7_verify pkcs7_data verify_cacert_resp trust_store).

Definition good_nonce (nonce : option bytes) : Prop := match nonce with None => True | Some r => all_bytes r /\ len r = 16 end.
Lemma hex_nonce : forall r, all_bytes r -> len r = 16 ->
  est_hex_to_str (repeat 0 (Z.to_nat (32 + 1))) 0 r = Ok (hex_string r ++ [0]).
Proof.
  intros r A L. rewrite <- (app_nil_r (repeat 0 _)). apply hex_exact; [exact A|]. rewrite len_repeat. lia.
Qed.

Lemma not_none : forall e, err_eqb e EST_ERR_NONE = false -> e <> EST_ERR_NONE.
Proof. intros e E ->. discriminate E. Qed.
Ltac ok_inv H := injection H; clear H; intros; subst.
Lemma send_accepts : forall serial nb sb cb c nonce xs len0 l c' xs' tr,
  no_nul serial -> len nb = 34 -> len sb = 66 -> len cb = 8192 -> good_nonce nonce ->
  send_get_voucher (serial ++ [0]) nb sb cb c nonce xs len0 = Ok (EST_ERR_NONE, l, c', xs', tr) ->
  exists r x p t, nonce = Some r /\ (exists tr0, tr = tr0 ++ [Sent (hex_string r ++ [0]) x]) /\ x_reply x = EST_ERR_NONE
    /\ d2i_PKCS7 (x_voucher x) = Some p /\ trust_store = true /\ PKCS7_verify p <> 0
    /\ accepts (pkcs7_data p) (hex_string r) serial t /\ v_cacert c' = Some t.
Proof.
  intros serial nb sb cb c nonce xs len0 l c' xs' tr Ns Lnb Lsb Lcb G H. unfold est_client_brski_send_get_voucher in H.
  destruct xs as [|x xs]; [discriminate|].
  destruct (err_eqb (x_connect x) EST_ERR_NONE) eqn:E1; cbn [negb] in H.
  2: { apply not_none in E1. congruence. }
  destruct nonce as [r|]; [|discriminate]. destruct G as [A L]. unfold EST_BRSKI_VOUCHER_REQ_NONCE_SIZE in H. rewrite (hex_nonce r A L) in H. cbn [bind] in H.
  destruct (err_eqb (x_cert x) EST_ERR_NONE) eqn:E2; cbn [negb] in H.
  2: { apply not_none in E2. congruence. }
  assert (P : forall vo cacert l ca, parse_voucher vo (serial ++ [0]) (hex_string r ++ [0]) nb sb cb cacert = Ok (EST_ERR_NONE, l, ca) ->
    exists p t, d2i_PKCS7 vo = Some p /\ trust_store = true /\ PKCS7_verify p <> 0 /\ accepts (pkcs7_data p) (hex_string r) serial t /\ ca = Some t).
  { intros vo cacert l0 ca Hp.
    destruct (parse_voucher_accepts _ _ _ _ _ _ _ _ _ (eq_trans (AuthDigest.hex_len r) (f_equal (Z.mul 2) L)) (AuthDigest.hex_no_nul r A) Ns Lnb Lsb Lcb Hp) as (_ & p & t & K).
    now exists p, t. }
  destruct (err_eqb (x_reply x) EST_ERR_AUTH_FAIL && asks_auth (v_mode (after_send c x))).
  - destruct xs as [|y xs]; [discriminate|].
    destruct (err_eqb (x_connect y) EST_ERR_NONE) eqn:E3; cbn [negb bind] in H.
    2: { apply not_none in E3. congruence. }
    destruct (err_eqb (x_cert y) EST_ERR_NONE) eqn:E4; cbn [negb bind] in H.
    2: { apply not_none in E4. congruence. }
    destruct (err_eqb (x_reply y) EST_ERR_NONE) eqn:E5.
    2: { apply not_none in E5. congruence. }
    unfold after_send in H. cbn [v_voucher v_cacert v_delay] in H. rewrite E5 in H.
    destruct (parse_voucher (x_voucher y) _ _ _ _ _ _) as [[[e n] ca]|] eqn:Pv; cbn [bind] in H; [|discriminate].
    assert (e = EST_ERR_NONE) by congruence. subst e.
    destruct (P _ _ _ _ Pv) as (p & t & D & T & V & Ac & ->).
    assert (tr = [Sent (hex_string r ++ [0]) x; Sent (hex_string r ++ [0]) y]) by congruence.
    assert (v_cacert c' = Some t) by (injection H; clear H; intros; subst; reflexivity).
    exists r, y, p, t. split; [reflexivity|]. split; [now exists [Sent (hex_string r ++ [0]) x]|]. split; [now apply err_eqb_eq|]. auto.
  - cbn [bind] in H. destruct (err_eqb (x_reply x) EST_ERR_NONE) eqn:E5.
    2: { apply not_none in E5. congruence. }
    unfold after_send in H. cbn [v_voucher v_cacert v_delay] in H. rewrite E5 in H.
    destruct (parse_voucher (x_voucher x) _ _ _ _ _ _) as [[[e n] ca]|] eqn:Pv; cbn [bind] in H; [|discriminate].
    assert (e = EST_ERR_NONE) by congruence. subst e.
    destruct (P _ _ _ _ Pv) as (p & t & D & T & V & Ac & ->).
    assert (tr = [Sent (hex_string r ++ [0]) x]) by congruence.
    assert (v_cacert c' = Some t) by (injection H; clear H; intros; subst; reflexivity).
    exists r, x, p, t. split; [reflexivity|]. split; [now exists []|]. split; [now apply err_eqb_eq|]. auto.
Qed.

Lemma strnlen_plain : forall v max, no_nul v -> 0 <= max -> strnlen v max = Z.min max (len v).
Proof.
  intros v max N M. unfold strnlen. rewrite before_char_no_nul by now apply no_nul_firstn. rewrite len_firstn. lia.
Qed.
Theorem get_accepts : forall serial nb sb cb c nonce1 nonce2 xs len0 l c' tr,
  no_nul serial -> len nb = 34 -> len sb = 66 -> len cb = 8192 -> good_nonce nonce1 -> good_nonce nonce2 ->
  get_voucher (Some serial) nb sb cb c nonce1 nonce2 xs len0 = Ok (EST_ERR_NONE, l, c', tr) ->
  exists r x p t, In (Some r) [nonce1; nonce2] /\ (exists tr0, tr = tr0 ++ [Sent (hex_string r ++ [0]) x]) /\ x_reply x = EST_ERR_NONE
    /\ d2i_PKCS7 (x_voucher x) = Some p /\ trust_store = true /\ PKCS7_verify p <> 0
    /\ accepts (pkcs7_data p) (hex_string r) serial t /\ v_cacert c' = Some t /\ len serial <= 64.
Proof.
  intros serial nb sb cb c nonce1 nonce2 xs len0 l c' tr Ns Lnb Lsb Lcb G1 G2 H. unfold est_client_brski_get_voucher, EST_BRSKI_MAX_SER_NUM_LEN in H.
  destruct (64 <? strnlen serial (64 + 1)) eqn:L; [discriminate|].
  assert (Ls : len serial <= 64).
  { destruct (Z_le_gt_dec (len serial) 64) as [K|K]; [exact K|]. exfalso. rewrite strnlen_plain in L by (try exact Ns; lia). lia. }
  rewrite strnlen_plain in H by (try exact Ns; lia). rewrite Z.min_r in H by lia. rewrite firstn_all_z in H by lia.
  destruct (send_get_voucher (serial ++ [0]) nb sb cb c nonce1 xs len0) as [[[[[rv l1] c1] xs1] t1]|] eqn:S1; cbn [bind] in H; [|discriminate].
  destruct (err_eqb rv EST_ERR_CA_ENROLL_RETRY) eqn:R.
  - destruct (send_get_voucher (serial ++ [0]) nb sb cb c1 nonce2 xs1 l1) as [[[[[rv2 l2] c2] xs2] t2]|] eqn:S2; cbn [bind] in H; [|discriminate].
    assert (rv2 = EST_ERR_NONE) by congruence. assert (c2 = c') by congruence.
    assert (Et : tr = t1 ++ [Slept (if EST_BRSKI_CLIENT_RETRY_MAX <? v_delay c1 then EST_BRSKI_CLIENT_RETRY_MAX else v_delay c1)] ++ t2) by congruence. subst rv2 c2.
    destruct (send_accepts _ _ _ _ _ _ _ _ _ _ _ _ Ns Lnb Lsb Lcb G2 S2) as (r & x & p & t & -> & (tr0 & ->) & K).
    exists r, x, p, t. split; [cbn; auto|]. split; [rewrite Et, !app_assoc; now eexists|]. tauto.
  - assert (rv = EST_ERR_NONE) by congruence. assert (c1 = c') by congruence. assert (tr = t1) by congruence. subst rv c1 t1.
    destruct (send_accepts _ _ _ _ _ _ _ _ _ _ _ _ Ns Lnb Lsb Lcb G1 S1) as (r & x & p & t & -> & K1 & K).
    exists r, x, p, t. split; [cbn; auto|]. tauto.
Qed.

(** *** Effort *)
Lemma send_effort : forall serial nb sb cb c nonce xs len0 rv l c' xs' tr,
  send_get_voucher serial nb sb cb c nonce xs len0 = Ok (rv, l, c', xs', tr) ->
  len (sent tr) <= 2 /\ slept tr = [] /\ (exists used, xs = used ++ xs' /\ 1 <= len used <= 2)
  /\ (forall n1 n2 x1 x2, In (n1, x1) (sent tr) -> In (n2, x2) (sent tr) -> n1 = n2).
Proof.
  intros serial nb sb cb c nonce xs len0 rv l c' xs' tr H. unfold est_client_brski_send_get_voucher in H.
  destruct xs as [|x xs]; [discriminate|].
  assert (U1 : forall tr0 l0 c0 e, Ok (e, l0, c0, xs, tr0) = Ok (rv, l, c', xs', tr) -> exists used, x :: xs = used ++ xs' /\ 1 <= len used <= 2).
  { intros tr0 l0 c0 e E. exists [x]. assert (xs = xs') by congruence. subst. split; [reflexivity|]. cbn. lia. }
  destruct (negb (err_eqb (x_connect x) EST_ERR_NONE)).
  { pose proof (U1 _ _ _ _ H). assert (tr = []) by congruence. subst tr. cbn. repeat split; auto; try lia; contradiction. }
  destruct nonce as [r|].
  2: { pose proof (U1 _ _ _ _ H). assert (tr = []) by congruence. subst tr. cbn. repeat split; auto; try lia; contradiction. }
  destruct (est_hex_to_str _ _ _) as [ns|]; cbn [bind] in H; [|discriminate].
  destruct (negb (err_eqb (x_cert x) EST_ERR_NONE)).
  { pose proof (U1 _ _ _ _ H). assert (tr = []) by congruence. subst tr. cbn. repeat split; auto; try lia; contradiction. }
  assert (F : forall quit e c2 xs2 tr2,
    (if (quit : bool) then Ok (e, len0, c2, xs2, tr2)
     else if err_eqb e EST_ERR_NONE then
       '(rv', n, ca) <- parse_voucher (v_voucher c2) serial ns nb sb cb (v_cacert c2) ;;
       Ok (rv', n, {| v_mode := AUTH_NONE; v_delay := v_delay c2; v_voucher := v_voucher c2; v_cacert := ca |}, xs2, tr2)
     else Ok (e, len0, {| v_mode := AUTH_NONE; v_delay := v_delay c2; v_voucher := v_voucher c2; v_cacert := v_cacert c2 |}, xs2, tr2))
    = Ok (rv, l, c', xs', tr) -> xs2 = xs' /\ tr2 = tr).
  { intros quit e c2 xs2 tr2 E. destruct quit; [split; congruence|]. destruct (err_eqb e EST_ERR_NONE); [|split; congruence].
    destruct (parse_voucher _ _ _ _ _ _ _) as [[[? ?] ?]|]; cbn [bind] in E; [|discriminate]. split; congruence. }
  assert (One : forall tr0, tr0 = [Sent ns x] -> len (sent tr0) <= 2 /\ slept tr0 = [] /\
     (forall n1 n2 x1 x2, In (n1, x1) (sent tr0) -> In (n2, x2) (sent tr0) -> n1 = n2)).
  { intros tr0 ->. cbn. split; [lia|]. split; [reflexivity|]. intros n1 n2 x1 x2 [A|[]] [B|[]]. congruence. }
  destruct (_ && _).
  - destruct xs as [|y xs]; [discriminate|].
    assert (U2 : exists used, x :: y :: xs = used ++ xs /\ 1 <= len used <= 2) by (exists [x; y]; split; [reflexivity|cbn; lia]).
    destruct (negb (err_eqb (x_connect y) EST_ERR_NONE)); cbn [bind] in H; [|destruct (negb (err_eqb (x_cert y) EST_ERR_NONE)); cbn [bind] in H].
    + apply (F true) in H as [<- <-]. destruct (One _ eq_refl) as (A & B & C). auto.
    + apply (F true) in H as [<- <-]. destruct (One _ eq_refl) as (A & B & C). auto.
    + apply (F false) in H as [<- <-]. cbn [sent slept flat_map app]. split; [cbn; lia|]. split; [reflexivity|]. split; [exact U2|].
      intros n1 n2 x1 x2 [A|[A|[]]] [B|[B|[]]]; congruence.
  - cbn [bind] in H. apply (F false) in H as [<- <-]. destruct (One _ eq_refl) as (A & B & C). split; [exact A|]. split; [exact B|]. split; [|exact C].
    exists [x]. split; [reflexivity|cbn; lia].
Qed.
Lemma sent_app : forall a b, sent (a ++ b) = sent a ++ sent b.
Proof. intros. unfold sent. apply flat_map_app. Qed.
Lemma slept_app : forall a b, slept (a ++ b) = slept a ++ slept b.
Proof. intros. unfold slept. apply flat_map_app. Qed.

Theorem get_effort : forall ser nb sb cb c nonce1 nonce2 xs len0 rv l c' tr,
  get_voucher ser nb sb cb c nonce1 nonce2 xs len0 = Ok (rv, l, c', tr) ->
  len (sent tr) <= 4 /\ len (slept tr) <= 1 /\ Forall (fun d => d <= 60) (slept tr).
Proof.
  intros ser nb sb cb c nonce1 nonce2 xs len0 rv l c' tr H. unfold est_client_brski_get_voucher in H.
  destruct ser as [s|]. 2: { assert (tr = []) by congruence. subst tr. cbn. repeat split; auto; lia. }
  destruct (_ <? _). { assert (tr = []) by congruence. subst tr. cbn. repeat split; auto; lia. }
  destruct (send_get_voucher _ nb sb cb c nonce1 xs len0) as [[[[[rv1 l1] c1] xs1] t1]|] eqn:S1; cbn [bind] in H; [|discriminate].
  apply send_effort in S1 as (A1 & B1 & _).
  destruct (err_eqb rv1 EST_ERR_CA_ENROLL_RETRY).
  - destruct (send_get_voucher _ nb sb cb c1 nonce2 xs1 l1) as [[[[[rv2 l2] c2] xs2] t2]|] eqn:S2; cbn [bind] in H; [|discriminate].
    apply send_effort in S2 as (A2 & B2 & _).
    assert (Et : tr = t1 ++ [Slept (if EST_BRSKI_CLIENT_RETRY_MAX <? v_delay c1 then EST_BRSKI_CLIENT_RETRY_MAX else v_delay c1)] ++ t2) by congruence.
    subst tr. rewrite !sent_app, !slept_app, B1, B2. cbn [sent slept flat_map app]. rewrite len_app.
    split; [lia|]. split; [cbn; lia|]. repeat constructor. unfold EST_BRSKI_CLIENT_RETRY_MAX. destruct (60 <? v_delay c1) eqn:D; lia.
  - assert (t1 = tr) by congruence. subst t1. rewrite B1. cbn. repeat split; auto; lia.
Qed.
End Voucher.
