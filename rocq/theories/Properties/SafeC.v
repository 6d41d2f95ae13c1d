(** C91: the bounded string and memory functions bundled with the library keep
    their bounds.  Read with Spec/SafeC.v.  A destination is a block [d] with
    room for at least [dmax] octets. *)
From Coq Require Import String ZArith List Bool Lia ZifyBool ZifyNat.
From Verif Require Import Base Spec.SafeC Model.SafeC Proofs.SafeC.
From Verif Require Model.CLib Model.ClientHttp Model.HttpServer Model.Uri.
Import ListNotations.
Open Scope Z_scope.

(** strncpy_s copies the text, at most [slen] characters of it, and ends it with
    a NUL; if that does not fit it says so and leaves an empty text.  Nothing
    behind [dmax] octets is touched. *)
Theorem C91_strncpy : forall d dmax src slen s, 1 <= dmax <= 9223372036854775807 -> dmax <= len d -> 0 <= slen <= 9223372036854775807 ->
  offers src (Z.min slen dmax) s ->
  exists d', within dmax d d' /\
  ((len s < dmax /\ holds d' s /\ strncpy_s (Some d) dmax (Some src) slen = Ok (0, Some d'))
   \/ (len s = dmax /\ holds d' [] /\ strncpy_s (Some d) dmax (Some src) slen = Ok (406, Some d'))).
Proof.
  intros d dmax src slen s Hd Hl Hs O. pose proof O as [N _]. unfold strncpy_s, RSIZE_MAX. replace (dmax =? 0) with false by lia.
  replace (9223372036854775807 <? dmax) with false by lia. replace (9223372036854775807 <? slen) with false by lia. cbn [bind].
  assert (L : len s <= dmax) by (destruct O as [_ [[? _]|[? _]]]; lia).
  destruct (Z_lt_ge_dec (len s) dmax) as [F|F].
  - assert (O' : offers src slen s). { destruct O as [_ [[E R]|[E R]]]; (split; [exact N|]); [left; split; [lia|exact R]|right; split; [lia|exact R]]. }
    exists (s ++ 0 :: skipn (S (length s)) d). split.
    + replace (s ++ 0 :: skipn (S (length s)) d) with ((s ++ [0]) ++ skipn (S (length s)) d) by (rewrite <- app_assoc; reflexivity).
      rewrite <- (firstn_skipn (S (length s)) d) at 1. apply within_app; rewrite firstn_length, ?app_length; cbn [length]; unfold len in *; lia.
    + left. split; [exact F|]. split; [split; [exact N|eauto]|].
      apply (copy_fits (Z.to_nat dmax) [] d [] src slen s); auto; unfold len in *; lia.
  - assert (E : len s = dmax) by lia. destruct O as [_ [[Em [r ->]]|[? _]]]; [|lia].
    exists (0 :: tl (s ++ skipn (Z.to_nat dmax) d)). split.
    + destruct s as [|c s]; [cbn in E; lia|]. cbn [Datatypes.app tl]. change (0 :: s ++ skipn (Z.to_nat dmax) d) with ((0 :: s) ++ skipn (Z.to_nat dmax) d).
      apply within_skip; [lia|rewrite len_cons in E |- *; lia|lia].
    + right. split; [exact E|]. split; [split; [intros []|eexists; reflexivity]|].
      assert (Ls : length s = Z.to_nat dmax) by (unfold len in E; lia).
      apply (copy_full (Z.to_nat dmax) [] d [] s r slen); [reflexivity|exact N|exact Ls|unfold len in Hl; lia|rewrite Z2Nat.id by lia; lia|]. intros D. cbn [Datatypes.app] in D. rewrite D in Hl. cbn in Hl. lia.
Qed.
Print Assumptions C91_strncpy.

(** strcpy_s touches nothing behind [dmax] octets, ... *)
Theorem C91_strcpy_partial : forall d dmax src s, 1 <= dmax <= len d -> offers src dmax s ->
  exists d', strcpy_s (Some d) dmax (Some src) = Ok (0, Some d') /\ within dmax d d'
    /\ (len s < dmax -> holds d' s) /\ (len s = dmax -> exists r, d' = s ++ r).
Proof.
  intros d dmax src s H O. pose proof O as [N _]. assert (L : len s <= dmax) by (destruct O as [_ [[? _]|[? _]]]; lia).
  unfold strcpy_s, strncpy. replace (dmax =? 0) with false by lia. replace (len d <? dmax) with false by lia.
  rewrite <- (Z2Nat.id dmax) in O by lia. apply text_upto_spec in O. rewrite O. eexists. split; [reflexivity|]. split.
  - rewrite app_assoc. apply within_skip; [lia| |lia]. rewrite len_app, len_repeat. lia.
  - split; [|eauto]. intro F. split; [exact N|]. replace (Z.to_nat (dmax - len s)) with (S (Z.to_nat (dmax - len s - 1))) by lia. cbn [repeat Datatypes.app]. eauto.
Qed.
Print Assumptions C91_strcpy_partial.
(** ... but a text that does not fit is cut without a NUL, and without an error. *)
Theorem C91_strcpy_refuted : exists d src d', len d = 4 /\ strcpy_s (Some d) 4 (Some src) = Ok (0, Some d') /\ holds src (str "libest") /\ ~ exists s, holds d' s.
Proof.
  exists [0; 0; 0; 0], (str "libest" ++ [0]). eexists. split; [reflexivity|]. split; [vm_compute; reflexivity|].
  split; [split; [cbn; intuition discriminate|now exists []]|]. intros (s & _ & r & E).
  assert (I : In 0 (s ++ 0 :: r)) by apply in_elt. rewrite <- E in I. cbn in I. intuition discriminate.
Qed.
Print Assumptions C91_strcpy_refuted.

(** strcat_s appends the text, at most [dmax] characters of it; this is safe
    exactly if the block itself is long enough for what is in it and that. *)
Theorem C91_strcat_partial : forall d dmax src a s, 1 <= dmax -> holds d a -> offers src dmax s ->
  (is_ok (strcat_s (Some d) dmax (Some src)) <-> len a + len s + 1 <= len d)
  /\ (len a + len s + 1 <= len d -> exists d', strcat_s (Some d) dmax (Some src) = Ok (0, Some d') /\ holds d' (a ++ s) /\ within (len a + len s + 1) d d').
Proof.
  intros d dmax src a s H [Na [ra ->]] O. pose proof O as [N _]. unfold strcat_s, strncat. replace (dmax =? 0) with false by lia.
  rewrite cstr_app_nul by exact Na. cbn [bind]. rewrite <- (Z2Nat.id dmax) in O by lia. apply text_upto_spec in O. rewrite O. cbn [bind].
  destruct (len a + len s + 1 <=? len (a ++ 0 :: ra)) eqn:L.
  - split; [split; [intros _; lia|intros _; eexists; reflexivity]|]. intros _. eexists. split; [reflexivity|].
    assert (F : a ++ s ++ 0 :: skipn (Z.to_nat (len a + len s + 1)) (a ++ 0 :: ra) = (a ++ s ++ [0]) ++ skipn (Z.to_nat (len a + len s + 1)) (a ++ 0 :: ra)) by (rewrite <- !app_assoc; reflexivity).
    split; [split; [intro I; apply in_app_or in I as [?|?]; auto|rewrite app_assoc; eauto]|].
    rewrite F. apply within_skip; [pose proof (len_nonneg _ a); pose proof (len_nonneg _ s); lia|rewrite !len_app; change (len [0]) with 1; lia|lia].
  - split; [split; [intros [v V]; discriminate V|intro; lia]|intro; lia].
Qed.
Print Assumptions C91_strcat_partial.
(** So with the block's size as the bound it can write behind the block. *)
Theorem C91_strcat_refuted : exists d src, len d = 8 /\ holds d (str "well") /\ holds src (str "-known") /\ strcat_s (Some d) 8 (Some src) = UB.
Proof.
  exists (str "well" ++ repeat 0 4), (str "-known" ++ [0]). split; [reflexivity|].
  split; [split; [cbn; intuition discriminate|eexists; reflexivity]|]. split; [split; [cbn; intuition discriminate|eexists; reflexivity]|]. vm_compute. reflexivity.
Qed.
Print Assumptions C91_strcat_refuted.
(** strncat_s likewise, for at most [slen] characters; its bound it does not use. *)
Theorem C91_strncat_partial : forall d dmax src slen a s, 1 <= dmax -> 0 <= slen -> holds d a -> offers src slen s ->
  (is_ok (strncat_s (Some d) dmax (Some src) slen) <-> len a + len s + 1 <= len d)
  /\ (len a + len s + 1 <= len d -> exists d', strncat_s (Some d) dmax (Some src) slen = Ok (0, Some d') /\ holds d' (a ++ s) /\ within (len a + len s + 1) d d').
Proof.
  intros d dmax src slen a s H Hs Ha O. destruct (Z.eq_dec slen 0) as [->|Ns].
  - pose proof (offers_0 _ _ O) as ->. destruct Ha as [Na [ra ->]]. unfold strncat_s, strncat. replace (dmax =? 0) with false by lia.
    rewrite cstr_app_nul by exact Na. cbn [bind text_upto Z.to_nat]. change (len (@nil Z)) with 0. rewrite !Z.add_0_r, app_nil_r.
    assert (L : len a + 1 <= len (a ++ 0 :: ra)) by (rewrite len_app, len_cons; pose proof (len_nonneg _ ra); lia).
    replace (len a + 1 <=? len (a ++ 0 :: ra)) with true by lia. split; [split; [intros _; exact L|intros _; eexists; reflexivity]|]. intros _. eexists. split; [reflexivity|].
    split; [split; [exact Na|eexists; reflexivity]|]. cbn [Datatypes.app].
    replace (a ++ 0 :: skipn (Z.to_nat (len a + 1)) (a ++ 0 :: ra)) with ((a ++ [0]) ++ skipn (Z.to_nat (len a + 1)) (a ++ 0 :: ra)) by (rewrite <- app_assoc; reflexivity).
    apply within_skip; [pose proof (len_nonneg _ a); lia|rewrite len_app; reflexivity|exact L].
  - pose proof (C91_strcat_partial d slen src a s ltac:(lia) Ha O) as G.
    replace (strncat_s (Some d) dmax (Some src) slen) with (strcat_s (Some d) slen (Some src)); [exact G|].
    unfold strncat_s, strcat_s. replace (dmax =? 0) with false by lia. replace (slen =? 0) with false by lia. reflexivity.
Qed.
Print Assumptions C91_strncat_partial.
Theorem C91_strncat_refuted : exists d src, len d = 8 /\ holds d (str "well") /\ holds src (str "-known") /\ strncat_s (Some d) 8 (Some src) 6 = UB.
Proof.
  exists (str "well" ++ repeat 0 4), (str "-known" ++ [0]). split; [reflexivity|].
  split; [split; [cbn; intuition discriminate|eexists; reflexivity]|]. split; [split; [cbn; intuition discriminate|eexists; reflexivity]|]. vm_compute. reflexivity.
Qed.
Print Assumptions C91_strncat_refuted.

(** strnlen_s, strcmp_s and memcmp_s. *)
Theorem C91_strnlen : forall src n s, 0 <= n -> offers src n s -> strnlen_s (Some src) n = Ok (len s).
Proof. intros src n s H O. unfold strnlen_s. rewrite <- (Z2Nat.id n) in O by lia. apply text_upto_spec in O. now rewrite O. Qed.
Print Assumptions C91_strnlen.
Theorem C91_strcmp : forall a b n s t, 1 <= n -> offers a n s -> offers b n t -> exists e, strcmp_s (Some a) n (Some b) = Ok (0, e) /\ (e = true <-> s = t).
Proof.
  intros a b n s t H Oa Ob. unfold strcmp_s, strncmp_same. replace (n =? 0) with false by lia. rewrite <- (Z2Nat.id n) in Oa, Ob by lia.
  apply text_upto_spec in Oa. apply text_upto_spec in Ob. rewrite Oa, Ob. eexists. split; [reflexivity|apply beq_eq].
Qed.
Print Assumptions C91_strcmp.
Theorem C91_memcmp : forall a b dmax n, 1 <= n <= dmax -> n <= len a -> n <= len b ->
  exists e, memcmp_s (Some a) dmax (Some b) n = Ok (0, e) /\ (e = true <-> forall i, Z.of_nat i < n -> nth_error a i = nth_error b i).
Proof.
  intros a b dmax n H La Lb. unfold memcmp_s. replace (dmax =? 0) with false by lia. replace (n =? 0) with false by lia. replace (dmax <? n) with false by lia.
  replace ((len a <? n) || (len b <? n)) with false by lia. eexists. split; [reflexivity|]. rewrite beq_eq. split.
  - intros E i I. rewrite <- (firstn_skipn (Z.to_nat n) a), <- (firstn_skipn (Z.to_nat n) b).
    rewrite !nth_error_app1 by (rewrite firstn_length; unfold len in *; lia). now rewrite E.
  - intro E. apply (first_same a b (Z.to_nat n)); [unfold len in *; lia..|]. intros i I. apply E. lia.
Qed.
Print Assumptions C91_memcmp.

(** strcasecmp_s compares one character more than it is told to. *)
Theorem C91_strcasecmp_partial : forall a b n s t, 1 <= n <= 9223372036854775807 -> holds a s -> holds b t -> all_bytes s -> all_bytes t ->
  exists i, strcasecmp_s (Some a) n (Some b) = Ok (0, i)
    /\ (i = 0 <-> ignoring_case (firstn (Z.to_nat (n + 1)) s) (firstn (Z.to_nat (n + 1)) t)).
Proof.
  intros a b n s t H [Ns [rs ->]] [Nt [rt ->]] Bs Bt. unfold strcasecmp_s, RSIZE_MAX. replace (n =? 0) with false by lia. replace (9223372036854775807 <? n) with false by lia.
  replace (Z.to_nat (n + 1)) with (S (Z.to_nat n)) by lia.
  destruct (casecmp_spec (Z.to_nat n) s t rs rt) as (i & -> & I); auto; [eapply Forall_impl; [|exact Bs]; unfold is_byte; cbn; lia|eapply Forall_impl; [|exact Bt]; unfold is_byte; cbn; lia|].
  exists i. split; [reflexivity|exact I].
Qed.
Print Assumptions C91_strcasecmp_partial.
Theorem C91_strcasecmp_refuted : exists a b s t, holds a s /\ holds b t /\ firstn 3 s = firstn 3 t /\ exists i, strcasecmp_s (Some a) 3 (Some b) = Ok (0, i) /\ i <> 0.
Proof.
  exists (str "csrattrs" ++ [0]), (str "csr" ++ [0]), (str "csrattrs"), (str "csr"). split; [split; [cbn; intuition discriminate|eexists; reflexivity]|]. split; [split; [cbn; intuition discriminate|eexists; reflexivity]|].
  split; [reflexivity|]. eexists. split; [vm_compute; reflexivity|discriminate].
Qed.
Print Assumptions C91_strcasecmp_refuted.

(** strisdigit_s: digits only, however many. *)
Theorem C91_strisdigit_partial : forall a n s, 1 <= n <= 9223372036854775807 -> holds a s ->
  exists v, strisdigit_s (Some a) n = Ok v /\ (v = 0 \/ v = 1) /\ (v = 1 <-> s <> [] /\ Forall (fun c => 48 <= c <= 57) s).
Proof.
  intros a n s H [N [r ->]]. unfold strisdigit_s, RSIZE_MAX. replace (n =? 0) with false by lia. replace (9223372036854775807 <? n) with false by lia.
  destruct s as [|c s].
  - exists 0. split; [reflexivity|]. split; [now left|]. split; [discriminate|intros [? _]; congruence].
  - assert (c <> 0) by (intro; subst; apply N; now left). cbn [Datatypes.app rd]. change (rd (c :: s ++ 0 :: r) 0) with (Ok c). cbn [bind]. replace (c =? 0) with false by lia.
    change (c :: s ++ 0 :: r) with ((c :: s) ++ 0 :: r). destruct (digit_spec (c :: s) r N) as (v & -> & V1 & V2). exists v. split; [reflexivity|]. split; [exact V1|]. rewrite V2. intuition discriminate.
Qed.
Print Assumptions C91_strisdigit_partial.
Theorem C91_strisdigit_refuted : exists a, holds a (repeat 57 30) /\ strisdigit_s (Some a) 10 = Ok 1.
Proof. exists (repeat 57 30 ++ [0]). split; [split; [cbn; intuition discriminate|eexists; reflexivity]|vm_compute; reflexivity]. Qed.
Print Assumptions C91_strisdigit_refuted.

(** strcspn_s and strspn_s count the characters at the start that are not (that
    are) in the set. *)
Theorem C91_span : forall stop a b n m s set, 1 <= n <= 9223372036854775807 -> 1 <= m <= 9223372036854775807 -> holds a s -> holds b set ->
  exists k, (if stop : bool then strcspn_s else strspn_s) (Some a) n (Some b) m = Ok (0, k)
    /\ span (fun c => if stop then ~ In c (firstn (Z.to_nat m) set) else In c (firstn (Z.to_nat m) set)) (firstn (Z.to_nat n) s) k.
Proof.
  intros stop a b n m s set Hn Hm Ha Hb.
  assert (E : (if stop then strcspn_s else strspn_s) (Some a) n (Some b) m = span_s stop (Some a) n (Some b) m) by (destruct stop; reflexivity). rewrite E.
  unfold span_s, RSIZE_MAX. replace (n =? 0) with false by lia. replace (9223372036854775807 <? n) with false by lia. replace (m =? 0) with false by lia. replace (9223372036854775807 <? m) with false by lia.
  assert (A : forall c, exists y, among c (Z.to_nat m) b = Ok y /\ (y = true <-> In c (firstn (Z.to_nat m) set))).
  { intro c. apply among_spec; [rewrite Z2Nat.id by lia; apply holds_offers; [exact Hb|lia]| |now right].
    destruct Hb as [_ [r ->]]. exists (skipn (Z.to_nat m) set ++ 0 :: r). split; [now rewrite app_assoc, firstn_skipn|now destruct (skipn _ _)]. }
  pose proof Ha as [N [r ->]]. destruct (holds_offers _ s n Ha) as [N' _]; [lia|].
  destruct (span_loop_spec stop b _ (Z.to_nat m) A (Z.to_nat n) (firstn (Z.to_nat n) s) (skipn (Z.to_nat n) s ++ 0 :: r)) as (k & K1 & K2).
  - exact N'.
  - now destruct (skipn _ _).
  - rewrite firstn_length. lia.
  - rewrite firstn_length. destruct (Nat.le_gt_cases (Z.to_nat n) (length s)); [left; lia|right]. rewrite skipn_all2 by lia. eexists. reflexivity.
  - rewrite app_assoc, firstn_skipn in K1. rewrite K1. exists k. split; [reflexivity|exact K2].
Qed.
Print Assumptions C91_span.

(** Copying octets: the whole of what is asked for, or nothing of it. *)
Theorem C91_memcpy : forall d dmax src n, 0 <= n -> 0 <= dmax <= len d -> n <= len src ->
  (n <= dmax /\ memcpy_s (Some d) dmax (Some src) n = Ok (0, Some (firstn (Z.to_nat n) src ++ skipn (Z.to_nat n) d)))
  \/ (dmax < n /\ memcpy_s (Some d) dmax (Some src) n = Ok (403, Some d)).
Proof.
  intros d dmax src n Hn Hd Hs. unfold memcpy_s, memcpy. destruct (dmax <? n) eqn:E; [right|left]; (split; [lia|]); [reflexivity|].
  replace ((len d <? n) || (len src <? n)) with false by lia. reflexivity.
Qed.
Print Assumptions C91_memcpy.
Theorem C91_memmove : forall d dmax src n, 0 <= n -> 1 <= dmax <= 9223372036854775807 -> dmax <= len d -> n <= len src ->
  let cleared := repeat 0 (Z.to_nat dmax) ++ skipn (Z.to_nat dmax) d in
  (1 <= n <= dmax /\ memmove_s (Some d) dmax (Some src) n = Ok (0, Some (firstn (Z.to_nat n) src ++ skipn (Z.to_nat n) d)))
  \/ (n = 0 /\ memmove_s (Some d) dmax (Some src) n = Ok (401, Some cleared))
  \/ (dmax < n /\ memmove_s (Some d) dmax (Some src) n = Ok (403, Some cleared)).
Proof.
  intros d dmax src n Hn H1 Hd Hs cleared. unfold memmove_s, RSIZE_MAX, memcpy, memset. replace (dmax =? 0) with false by lia. replace (9223372036854775807 <? dmax) with false by lia.
  replace (len d <? dmax) with false by lia. destruct (n =? 0) eqn:Z; [right; left; split; [lia|reflexivity]|]. destruct (dmax <? n) eqn:E; [right; right; split; [lia|reflexivity]|].
  left. split; [lia|]. replace ((len d <? n) || (len src <? n)) with false by lia. reflexivity.
Qed.
Print Assumptions C91_memmove.
Theorem C91_memset : forall d smax c n, 0 <= n -> 0 <= smax <= 9223372036854775807 -> smax <= len d -> is_byte c ->
  (memzero_s (Some d) smax = Ok (0, Some (repeat 0 (Z.to_nat smax) ++ skipn (Z.to_nat smax) d)))
  /\ ((n <= smax /\ memset_s (Some d) smax c n = Ok (0, Some (repeat c (Z.to_nat n) ++ skipn (Z.to_nat n) d)))
      \/ (smax < n /\ memset_s (Some d) smax c n = Ok (403, Some (repeat c (Z.to_nat smax) ++ skipn (Z.to_nat smax) d)))).
Proof.
  intros d smax c n Hn H1 Hd B. unfold memzero_s, memset_s, RSIZE_MAX, memset. replace (9223372036854775807 <? smax) with false by lia. replace (len d <? smax) with false by lia.
  split; [reflexivity|]. rewrite (Z.mod_small c 256) by exact B. destruct (smax <? n) eqn:E.
  - right. split; [lia|]. now rewrite orb_true_r.
  - left. split; [lia|]. replace (9223372036854775807 <? n) with false by lia. replace (len d <? n) with false by lia. reflexivity.
Qed.
Print Assumptions C91_memset.

(** strtok_s, given at most sixteen delimiters and a bound that covers the text:
    it skips delimiters; the token is all up to the next delimiter, which it
    replaces by NUL, and the next call is to go on behind it. *)
Theorem C91_strtok : forall before skip tok c rest behind dels dmax ptr,
  let m := before ++ skip ++ tok ++ c :: rest ++ 0 :: behind in
  let at_ := len before + len skip in
  ~ In 0 (dels : bytes) -> len dels <= 16 -> 1 <= dmax <= 9223372036854775807 -> len skip + len tok + 1 <= dmax ->
  Forall (fun x => In x dels) skip -> Forall (fun x => ~ In x dels) tok -> ~ In 0 tok -> tok <> [] -> In c dels ->
  strtok_s m (Some (len before)) dmax (dels ++ [0]) ptr
  = Ok (Some at_, before ++ skip ++ tok ++ 0 :: rest ++ 0 :: behind, Some (at_ + len tok + 1), dmax - len skip - len tok - 1).
Proof.
  intros before skip tok c rest behind dels dmax ptr m at_ N0 L16 Hd Hl Fs Ft Nt Et Ic.
  assert (Ed : dels <> []) by (intros ->; destruct Ic). assert (Ll : (length dels <= 16)%nat) by (unfold len in L16; lia).
  pose proof (len_nonneg _ before). pose proof (len_nonneg _ skip). unfold strtok_s, RSIZE_MAX. replace (dmax =? 0) with false by lia. replace (9223372036854775807 <? dmax) with false by lia.
  assert (Lm : len before <= len m) by (unfold m; rewrite len_app; pose proof (len_nonneg _ (skip ++ tok ++ c :: rest ++ 0 :: behind)); lia).
  replace ((len before <? 0) || (len m <? len before)) with false by lia.
  assert (Sk : skipn (Z.to_nat (len before)) m = skip ++ tok ++ c :: rest ++ 0 :: behind) by (unfold m, len; rewrite Nat2Z.id, skipn_app, skipn_all, Nat.sub_diag; reflexivity).
  rewrite Sk. destruct tok as [|t tok]; [congruence|]. rewrite len_cons in *. pose proof (len_nonneg _ tok).
  rewrite (start_skip dels [] N0 Ll) by (assumption || lia). inversion Ft; subst. assert (t <> 0) by (intro; subst; apply Nt; now left).
  cbn [Datatypes.app]. rewrite (start_at dels [] N0 Ll Ed) by (assumption || lia). cbn [bind].
  rewrite (end_skip dels [] N0 Ll) by (try assumption; try lia; intro; apply Nt; now right). rewrite (end_at dels [] N0 Ll) by (assumption || lia). cbn [bind].
  assert (W : wr m (len before + len skip + 1 + len tok) 0 = Ok (before ++ skip ++ (t :: tok) ++ 0 :: rest ++ 0 :: behind)).
  { replace m with ((before ++ skip ++ t :: tok) ++ c :: rest ++ 0 :: behind) by (unfold m; rewrite <- !app_assoc; reflexivity).
    replace (len before + len skip + 1 + len tok) with (len (before ++ skip ++ t :: tok)) by (rewrite !len_app, len_cons; lia).
    rewrite wr_mid. rewrite <- !app_assoc. reflexivity. }
  rewrite W. cbn [bind Datatypes.app]. unfold at_. f_equal. f_equal; [f_equal; f_equal; lia|lia].
Qed.
Print Assumptions C91_strtok.
(** A token that ends the text, or no token: *ptr stays as it was. *)
Theorem C91_strtok_last : forall before skip tok behind dels dmax ptr,
  let m := before ++ skip ++ tok ++ 0 :: behind in
  ~ In 0 (dels : bytes) -> dels <> [] -> len dels <= 16 -> 1 <= dmax <= 9223372036854775807 -> len skip + len tok <= dmax ->
  Forall (fun x => In x dels) skip -> Forall (fun x => ~ In x dels) tok -> ~ In 0 tok ->
  strtok_s m (Some (len before)) dmax (dels ++ [0]) ptr
  = Ok (match tok with [] => None | _ => Some (len before + len skip) end, m, ptr, dmax - len skip - len tok).
Proof.
  intros before skip tok behind dels dmax ptr m N0 Ed L16 Hd Hl Fs Ft Nt. assert (Ll : (length dels <= 16)%nat) by (unfold len in L16; lia).
  pose proof (len_nonneg _ before). pose proof (len_nonneg _ skip). unfold strtok_s, RSIZE_MAX. replace (dmax =? 0) with false by lia. replace (9223372036854775807 <? dmax) with false by lia.
  assert (Lm : len before <= len m) by (unfold m; rewrite len_app; pose proof (len_nonneg _ (skip ++ tok ++ 0 :: behind)); lia).
  replace ((len before <? 0) || (len m <? len before)) with false by lia.
  assert (Sk : skipn (Z.to_nat (len before)) m = skip ++ tok ++ 0 :: behind) by (unfold m, len; rewrite Nat2Z.id, skipn_app, skipn_all, Nat.sub_diag; reflexivity).
  rewrite Sk. pose proof (len_nonneg _ tok). rewrite (start_skip dels [] N0 Ll) by (assumption || lia). destruct tok as [|t tok].
  - change (len (@nil Z)) with 0. rewrite Z.sub_0_r. reflexivity.
  - rewrite len_cons in *. inversion Ft; subst. assert (t <> 0) by (intro; subst; apply Nt; now left). pose proof (len_nonneg _ tok).
    cbn [Datatypes.app]. rewrite (start_at dels [] N0 Ll Ed) by (assumption || lia). cbn [bind].
    rewrite (end_skip dels [] N0 Ll) by (try assumption; try lia; intro; apply Nt; now right). cbn [token_end bind]. replace (dmax - len skip - (len tok + 1)) with (dmax - len skip - 1 - len tok) by lia. reflexivity.
Qed.
Print Assumptions C91_strtok_last.

(** strstr_s: the first occurrence in the whole text, whatever the limits say;
    NULL pointers are used.  The limits should restrict the search to the first
    dmax characters and to the first slen characters of the pattern. *)
Theorem C91_strstr_partial : forall d dmax src slen s p, holds d s -> holds src p ->
  (exists i, strstr_s (Some d) dmax (Some src) slen = Ok (0, Some i) /\ occurs_at p s i /\ forall j, occurs_at p s j -> i <= j)
  \/ (strstr_s (Some d) dmax (Some src) slen = Ok (3, None) /\ forall j, ~ occurs_at p s j).
Proof.
  intros d dmax src slen s p [Ns [r ->]] [Np [q ->]]. unfold strstr_s, strstr. rewrite !cstr_app_nul by assumption. cbn [bind].
  assert (G : forall s i, match strstr_from i s p with
    | Some k => occurs_at p s (k - i) /\ (forall j, occurs_at p s j -> k - i <= j)
    | None => forall j, ~ occurs_at p s j end).
  { clear. induction s as [|c s IH]; intro i; cbn [strstr_from].
    - destruct (prefixb p []) eqn:P.
      + apply prefixb_spec in P. destruct P as [t P]. split; [exists [], t; split; [exact P|unfold len; cbn; lia]|]. intros j (a & b & _ & L). pose proof (len_nonneg _ a). lia.
      + intros j (a & b & E & L). destruct a; [|discriminate]. cbn in E. assert (Q : prefixb p [] = true) by (apply prefixb_spec; exists b; exact E). congruence.
    - destruct (prefixb p (c :: s)) eqn:P.
      + apply prefixb_spec in P. destruct P as [t P]. split; [exists [], t; split; [exact P|unfold len; cbn; lia]|]. intros j (a & b & _ & L). pose proof (len_nonneg _ a). lia.
      + assert (X : forall j, occurs_at p (c :: s) j -> occurs_at p s (j - 1)).
        { intros j (a & b & E & L). destruct a as [|x a].
          - cbn in E. assert (Q : prefixb p (c :: s) = true) by (apply prefixb_spec; exists b; exact E). congruence.
          - injection E as -> E. exists a, b. split; [exact E|]. rewrite len_cons in L. lia. }
        specialize (IH (i + 1)). destruct (strstr_from (i + 1) s p) as [k|].
        * destruct IH as [(a & b & E & L) M]. split.
          -- exists (c :: a), b. split; [cbn; now rewrite E|]. rewrite len_cons. lia.
          -- intros j J. specialize (M _ (X j J)). lia.
        * intros j J. exact (IH _ (X j J)). }
  specialize (G s 0). destruct (strstr_from 0 s p) as [k|]; cbn.
  - left. exists k. rewrite Z.sub_0_r in G. tauto.
  - right. tauto.
Qed.
Print Assumptions C91_strstr_partial.
(** So the colon behind the limit is found, and a pattern is not cut. *)
Theorem C91_strstr_refuted :
  (exists d src s p i, holds d s /\ holds src p /\ strstr_s (Some d) 2 (Some src) 1 = Ok (0, Some i) /\ 2 <= i)
  /\ (exists d src s p, holds d s /\ holds src p /\ strstr_s (Some d) (len s) (Some src) 1 = Ok (3, None) /\ occurs_at (firstn 1 p) s 1)
  /\ (forall x dmax slen, strstr_s None dmax x slen = UB /\ strstr_s x dmax None slen = UB).
Proof.
  split; [|split].
  - exists [97; 98; 99; 58; 0], [58; 0], [97; 98; 99; 58], [58], 3. split; [split; [cbn; lia|exists []; reflexivity]|]. split; [split; [cbn; lia|exists []; reflexivity]|]. split; [reflexivity|lia].
  - exists [97; 58; 0], [58; 99; 0], [97; 58], [58; 99]. split; [split; [cbn; lia|exists []; reflexivity]|]. split; [split; [cbn; lia|exists []; reflexivity]|]. split; [reflexivity|]. exists [97], []. split; reflexivity.
  - intros [x|] dmax slen; split; reflexivity.
Qed.
Print Assumptions C91_strstr_refuted.
(** The client's search for the end of the header (est_client_http.c:877). *)
Theorem C91_strstr_used : forall d src s p dmax slen, holds d s -> holds src p ->
  strstr_s (Some d) dmax (Some src) slen = Ok (match Model.ClientHttp.find_sub p s with Some _ => 0 | None => 3 end, Model.ClientHttp.find_sub p s).
Proof.
  intros d src s p dmax slen [Ns [r ->]] [Np [q ->]]. unfold strstr_s, strstr. rewrite !cstr_app_nul by assumption. cbn [bind].
  assert (G : forall s i, strstr_from i s p = match Model.ClientHttp.find_sub p s with Some k => Some (k + i) | None => None end).
  { clear. induction s as [|c s IH]; intro i; cbn [strstr_from Model.ClientHttp.find_sub].
    - now destruct (prefixb p []).
    - destruct (prefixb p (c :: s)); [reflexivity|]. rewrite IH. destruct (Model.ClientHttp.find_sub p s); [f_equal; lia|reflexivity]. }
  rewrite G. destruct (Model.ClientHttp.find_sub p s) as [k|]; [|reflexivity]. now rewrite Z.add_0_r.
Qed.
Print Assumptions C91_strstr_used.

(** NULL pointers and a bound of zero are refused. *)
Theorem C91_null : forall d src dmax n c,
  strncpy_s None dmax src n = Ok (400, None) /\ strcpy_s None dmax src = Ok (400, None) /\ strcpy_s d dmax None = Ok (400, d)
  /\ strcat_s None dmax src = Ok (400, None) /\ strcat_s d dmax None = Ok (400, d) /\ strncat_s None dmax src n = Ok (400, None) /\ strncat_s d dmax None n = Ok (400, d)
  /\ strnlen_s None n = Ok 0 /\ strisdigit_s None n = Ok 0 /\ (forall x, strcasecmp_s None n x = Ok (400, 0) /\ strcasecmp_s x n None = Ok (400, 0))
  /\ memcpy_s None dmax src n = Ok (400, None) /\ memcpy_s d dmax None n = Ok (400, d) /\ memmove_s None dmax src n = Ok (400, None)
  /\ memzero_s None dmax = Ok (400, None) /\ memset_s None dmax c n = Ok (400, None)
  /\ (forall x y, strncpy_s (Some x) 0 src n = Ok (401, Some x) /\ strcpy_s (Some x) 0 (Some y) = Ok (401, Some x) /\ strcat_s (Some x) 0 (Some y) = Ok (401, Some x)).
Proof. intros d src dmax n c. repeat split; try reflexivity; try (intros; destruct x; reflexivity); destruct d; reflexivity. Qed.
Print Assumptions C91_null.

(** Limits out of range, and a source that is missing though the destination is
    not: which error, and what is left in the destination. *)
Definition MAX : Z := 9223372036854775807.
Theorem C91_limits : forall x d y src dmax n c, let D := x :: d in
  (* strncpy_s *)
  (MAX < dmax -> strncpy_s (Some D) dmax src n = Ok (403, Some D))
  /\ (1 <= dmax <= MAX -> strncpy_s (Some D) dmax None n = Ok (400, Some (0 :: d)))
  (* the other functions on texts *)
  /\ strncat_s (Some D) 0 (Some y) n = Ok (401, Some D)
  /\ strcmp_s (Some D) 0 (Some y) = Ok (401, false) /\ strcmp_s None dmax src = Ok (400, false) /\ strcmp_s src dmax None = Ok (400, false)
  /\ strcasecmp_s (Some D) 0 (Some y) = Ok (401, 0) /\ (MAX < dmax -> strcasecmp_s (Some D) dmax (Some y) = Ok (403, 0))
  /\ strisdigit_s (Some D) 0 = Ok 0 /\ (MAX < dmax -> strisdigit_s (Some D) dmax = Ok 0)
  /\ (forall f, f = strspn_s \/ f = strcspn_s ->
        f None dmax src n = Ok (400, 0) /\ f (Some D) dmax None n = Ok (400, 0)
        /\ f (Some D) 0 (Some y) n = Ok (401, 0) /\ (MAX < dmax -> f (Some D) dmax (Some y) n = Ok (403, 0))
        /\ (1 <= dmax <= MAX -> f (Some D) dmax (Some y) 0 = Ok (401, 0))
        /\ (1 <= dmax <= MAX -> MAX < n -> f (Some D) dmax (Some y) n = Ok (403, 0)))
  /\ (forall t p, strtok_s D t 0 y p = Ok (None, D, p, 0) /\ (MAX < dmax -> strtok_s D t dmax y p = Ok (None, D, p, dmax)))
  (* the functions on blocks *)
  /\ (dmax < n -> memcpy_s (Some D) dmax (Some y) n = Ok (403, Some D))
  /\ memcmp_s None dmax src n = Ok (400, false) /\ memcmp_s (Some D) dmax None n = Ok (400, false) /\ memcmp_s (Some D) 0 (Some y) n = Ok (401, false)
  /\ (1 <= dmax -> memcmp_s (Some D) dmax (Some y) 0 = Ok (401, false)) /\ (1 <= dmax < n -> memcmp_s (Some D) dmax (Some y) n = Ok (403, false))
  /\ memmove_s (Some D) 0 src n = Ok (401, Some D) /\ (MAX < dmax -> memmove_s (Some D) dmax src n = Ok (403, Some D))
  /\ (1 <= dmax <= len D -> dmax <= MAX -> let cleared := Some (repeat 0 (Z.to_nat dmax) ++ skipn (Z.to_nat dmax) D) in
        memmove_s (Some D) dmax src 0 = Ok (401, cleared) /\ (dmax < n -> memmove_s (Some D) dmax src n = Ok (403, cleared))
        /\ (1 <= n <= dmax -> memmove_s (Some D) dmax None n = Ok (400, cleared)))
  /\ (MAX < dmax -> memset_s (Some D) dmax c n = Ok (403, Some D))
  /\ (0 <= dmax <= len D -> dmax <= MAX -> dmax < n -> memset_s (Some D) dmax c n = Ok (403, Some (repeat (c mod 256) (Z.to_nat dmax) ++ skipn (Z.to_nat dmax) D))).
Proof.
  Local Ltac cmp := repeat match goal with |- context [?a =? ?b] => first [replace (a =? b) with true by lia|replace (a =? b) with false by lia] | |- context [?a <? ?b] => first [replace (a <? b) with true by lia|replace (a <? b) with false by lia] end; cbn [orb bind]; try reflexivity.
  intros x d y src dmax n c D. unfold MAX. unfold strncpy_s, strncat_s, strcmp_s, strcasecmp_s, strisdigit_s, strtok_s, memcpy_s, memcmp_s, memmove_s, memset_s, memset, RSIZE_MAX.
  pose proof (len_nonneg _ d).
  repeat match goal with |- _ /\ _ => split end; intros; try reflexivity; try solve [cmp]; try solve [destruct src; reflexivity].
  - destruct H0 as [->| ->]; unfold strspn_s, strcspn_s, span_s, RSIZE_MAX; repeat split; intros; try reflexivity; cmp.
  - split; [reflexivity|intro; cmp].
  - split; [|split]; intros; cmp.
  - replace (dmax <? n) with true by lia. rewrite orb_true_r. cmp.
Qed.
Print Assumptions C91_limits.

(** ** What the rest of the model takes for granted about these functions *)
(** est_strcspn and est_strspn (est.c:2213-2251) call the bounded functions with
    the text's length. *)
Lemma span_len : forall (P : Z -> Prop) f s k, (forall c, P c <-> f c = true) -> span P s k -> k = len (take_while f s).
Proof.
  intros P f s k H. revert k. induction s as [|c s IH]; intros k K; [exact K|]. cbn in K |- *. destruct K as [[N ->]|(Y & K & _)].
  - rewrite H in N. destruct (f c); [congruence|reflexivity].
  - apply H in Y. rewrite Y, len_cons. rewrite <- (IH _ K). lia.
Qed.
Theorem C91_span_used : forall a b s set, holds a s -> holds b set -> s <> [] -> len s <= 9223372036854775807 -> len set <= 9223372036854775807 ->
  strcspn_s (Some a) (len s) (Some b) 9223372036854775807 = Ok (0, Model.HttpServer.est_strcspn s set)
  /\ strspn_s (Some a) (len s) (Some b) 9223372036854775807 = Ok (0, Model.HttpServer.est_strspn s set).
Proof.
  intros a b s set Ha Hb Ns Ls Lt. assert (P : 1 <= len s <= 9223372036854775807) by (destruct s; [congruence|rewrite len_cons in *; pose proof (len_nonneg _ s); lia]).
  assert (F1 : firstn (Z.to_nat (len s)) s = s) by (apply firstn_all2; unfold len; lia).
  assert (F2 : firstn (Z.to_nat 9223372036854775807) set = set) by (apply firstn_all2; unfold len in Lt; apply Nat2Z.inj_le; rewrite Z2Nat.id; lia).
  split.
  - destruct (C91_span true a b (len s) 9223372036854775807 s set P ltac:(lia) Ha Hb) as (k & E & K). rewrite F1, F2 in K. cbv beta iota in E, K. rewrite E. f_equal. f_equal.
    unfold Model.HttpServer.est_strcspn. refine (span_len _ _ s k _ K). intro c. rewrite <- memb_In. destruct (memb c set); cbn; intuition congruence.
  - destruct (C91_span false a b (len s) 9223372036854775807 s set P ltac:(lia) Ha Hb) as (k & E & K). rewrite F1, F2 in K. cbv beta iota in E, K. rewrite E. f_equal. f_equal.
    unfold Model.HttpServer.est_strspn. refine (span_len _ _ s k _ K). intro c. now rewrite memb_In.
Qed.
Print Assumptions C91_span_used.
(** est_strcasecmp_s (est.c:2196-2211): with the first text's length as bound,
    equality of the whole texts but for case. *)
Lemma casecmp_upper_map : forall a b, Model.Uri.casecmp_upper a b = true <-> map toupper a = map toupper b.
Proof.
  induction a as [|x a IH]; intros [|y b]; cbn; try (split; [discriminate|discriminate]); [split; reflexivity|]. rewrite andb_true_iff, IH, Z.eqb_eq. split; [intros [-> ->]; reflexivity|intro E; injection E; auto].
Qed.
Theorem C91_strcasecmp_used : forall a b s t, holds a s -> holds b t -> all_bytes s -> all_bytes t -> s <> [] -> len s <= 9223372036854775807 ->
  exists i, strcasecmp_s (Some a) (len s) (Some b) = Ok (0, i) /\ (i = 0 <-> Model.Uri.est_strcaseeq_s s t = true) /\ (i = 0 <-> ignoring_case s t).
Proof.
  intros a b s t Ha Hb Bs Bt Ns Ls. assert (P : 1 <= len s <= 9223372036854775807) by (destruct s; [congruence|rewrite len_cons in *; pose proof (len_nonneg _ s); lia]).
  destruct (C91_strcasecmp_partial a b (len s) s t P Ha Hb Bs Bt) as (i & E & I). exists i. split; [exact E|].
  assert (G : i = 0 <-> ignoring_case s t).
  { rewrite I. unfold ignoring_case. replace (Z.to_nat (len s + 1)) with (S (length s)) by (unfold len; lia). rewrite (firstn_all2 s) by lia. split.
    - intro Q. destruct (Nat.le_gt_cases (length t) (S (length s))) as [L|L]; [now rewrite (firstn_all2 t) in Q|]. apply (f_equal (@length Z)) in Q. rewrite !map_length, firstn_length in Q. lia.
    - intro Q. assert (length s = length t) by (apply (f_equal (@length Z)) in Q; now rewrite !map_length in Q). now rewrite (firstn_all2 t) by lia. }
  split; [|exact G]. rewrite G. destruct s as [|x s]; [congruence|]. cbn [Model.Uri.est_strcaseeq_s]. now rewrite casecmp_upper_map.
Qed.
Print Assumptions C91_strcasecmp_used.
(** Copies made with strcpy_s. *)
Theorem C91_strcpy_used : forall d dmax src s, 1 <= dmax <= len d -> holds src s ->
  strcpy_s (Some d) dmax (Some src) = Ok (0, Some (Model.CLib.strncpy_img s dmax ++ skipn (Z.to_nat dmax) d)).
Proof.
  intros d dmax src s H Hs. pose proof (holds_offers _ _ dmax Hs ltac:(lia)) as O. unfold strcpy_s, strncpy. replace (dmax =? 0) with false by lia. replace (len d <? dmax) with false by lia.
  rewrite <- (Z2Nat.id dmax) in O at 1 by lia. apply text_upto_spec in O. rewrite O. cbn [bind]. f_equal. f_equal. f_equal. rewrite app_assoc. f_equal. unfold Model.CLib.strncpy_img.
  rewrite firstn_app. f_equal. replace (Z.to_nat (dmax - len (firstn (Z.to_nat dmax) s))) with (Z.to_nat dmax - length s)%nat by (rewrite len_firstn; unfold len; lia).
  replace (Z.to_nat dmax) with ((Z.to_nat dmax - length s) + (Z.to_nat dmax - (Z.to_nat dmax - length s)))%nat at 3 by lia.
  rewrite repeat_app, firstn_app, repeat_length, Nat.sub_diag, app_nil_r, firstn_all2 by (rewrite repeat_length; lia). reflexivity.
Qed.
Print Assumptions C91_strcpy_used.
(** Splitting a user name and a password (est_server_http.c:852-856). *)
Theorem C91_strtok_used : forall both s n ptr, holds both s -> In 58 s -> hd 0 s <> 58 -> len s <= n <= 9223372036854775807 ->
  exists m' next, strtok_s both (Some 0) n [58; 0] ptr = Ok (Some 0, m', Some next, n - next)
    /\ cstr_at m' 0 = Ok (Model.CLib.before_char 58 s) /\ cstr_at m' next = Ok (skipn (S (length (Model.CLib.before_char 58 s))) s).
Proof.
  intros both s n ptr [N [r ->]] I Hh Ln. set (user := Model.CLib.before_char 58 s).
  assert (E : exists pw, s = user ++ 58 :: pw).
  { unfold user, Model.CLib.before_char. clear user. clear - I. induction s as [|c s IH]; [destruct I|]. cbn. destruct (c =? 58) eqn:C; [exists s; cbn; f_equal; lia|]. destruct I as [->|I]; [discriminate C|]. destruct (IH I) as [pw E]. exists pw. cbn. now rewrite <- E. }
  destruct E as [pw E]. assert (Nu : ~ In 0 user) by (intro Q; apply N; rewrite E; apply in_or_app; now left). assert (Np : ~ In 0 pw) by (intro Q; apply N; rewrite E; apply in_or_app; right; now right).
  assert (Fu : Forall (fun x => ~ In x [58]) user).
  { unfold user, Model.CLib.before_char. eapply Forall_impl; [|apply take_while_all]. cbn. intros x Hx [Q|[]]. rewrite <- Q in Hx. discriminate Hx. }
  clearbody user.
  assert (Eu : user <> []) by (intro Q; rewrite Q in E; rewrite E in Hh; cbn in Hh; congruence).
  assert (Ls : len s = len user + len pw + 1) by (rewrite E, len_app, len_cons; lia). pose proof (len_nonneg _ pw). pose proof (len_nonneg _ user).
  pose proof (C91_strtok [] [] user 58 pw r [58] n ptr) as T. cbv zeta in T. cbn [Datatypes.app] in T. change (len (@nil Z)) with 0 in T. change (len [58]) with 1 in T.
  specialize (T ltac:(cbn; intuition discriminate) ltac:(lia) ltac:(lia) ltac:(lia) ltac:(constructor) Fu Nu Eu ltac:(now left)).
  exists (user ++ 0 :: pw ++ 0 :: r), (len user + 1). split.
  - rewrite E, <- app_assoc. cbn [Datatypes.app]. rewrite T. f_equal. f_equal. lia.
  - split; [apply cstr_app_nul; exact Nu|]. unfold cstr_at. replace (0 <=? len user + 1) with true by lia. replace (Z.to_nat (len user + 1)) with (S (length user)) by (unfold len; lia).
    replace (skipn (S (length user)) s) with pw by (rewrite E; change (user ++ 58 :: pw) with (user ++ [58] ++ pw); rewrite app_assoc, skipn_app, skipn_all2 by (rewrite app_length; cbn; lia); rewrite app_length; cbn [length]; replace (S (length user) - (length user + 1))%nat with 0%nat by lia; reflexivity).
    replace (skipn (S (length user)) (user ++ 0 :: pw ++ 0 :: r)) with (pw ++ 0 :: r); [apply cstr_app_nul; exact Np|].
    change (user ++ 0 :: pw ++ 0 :: r) with (user ++ [0] ++ pw ++ 0 :: r). rewrite app_assoc, skipn_app, skipn_all2 by (rewrite app_length; cbn; lia). rewrite app_length. cbn [length]. replace (S (length user) - (length user + 1))%nat with 0%nat by lia. reflexivity.
Qed.
Print Assumptions C91_strtok_used.

(** A manufacturer's name is copied, and one that is too long is refused. *)
Example C91_case : offers (str "Cisco" ++ [0; 7]) (Z.min 20 6) (str "Cisco")
  /\ strncpy_s (Some (repeat 9 8)) 6 (Some (str "Cisco" ++ [0; 7])) 20 = Ok (0, Some (str "Cisco" ++ [0; 9; 9]))
  /\ strncpy_s (Some (repeat 9 8)) 5 (Some (str "Cisco" ++ [0; 7])) 20 = Ok (406, Some (0 :: str "isco" ++ [9; 9; 9]))
  /\ strcspn_s (Some (str "estsimple/enroll" ++ [0])) 16 (Some (str "/\" ++ [0])) 2 = Ok (0, 9)
  /\ strtok_s (str "alice:secret" ++ [0]) (Some 0) 12 (str ":" ++ [0]) None = Ok (Some 0, str "alice" ++ 0 :: str "secret" ++ [0], Some 6, 6)
  /\ memmove_s (Some [1; 2; 3]) 2 (Some [4; 5; 6]) 3 = Ok (403, Some [0; 0; 3]).
Proof. split; [split; [cbn; intuition discriminate|right; split; [reflexivity|eexists; reflexivity]]|]. vm_compute. auto 6. Qed.
