(** Base64, hex and TLS unique id. *)
From Coq Require Import String ZArith List Bool Lia ZifyBool ZifyNat.
From Verif Require Import Base Model.CLib Spec.Base64 Model.Codec Proofs.HttpParse.
Import ListNotations.
Open Scope Z_scope.
Ltac Zify.zify_post_hook ::= Z.to_euclidean_division_equations.

Lemma list3_ind : forall (P : bytes -> Prop),
  P [] -> (forall a, P [a]) -> (forall a b, P [a; b]) ->
  (forall a b c t, P t -> P (a :: b :: c :: t)) -> forall l, P l.
Proof.
  intros P H0 H1 H2 H3 l. remember (length l) as n eqn:E. revert l E.
  induction n as [n IH] using lt_wf_ind. intros l E. subst n.
  destruct l as [|a [|b [|c t]]]; auto. apply H3. apply (IH (length t)); cbn; [lia|reflexivity].
Qed.
Lemma list4_ind : forall (P : bytes -> Prop),
  P [] -> (forall a, P [a]) -> (forall a b, P [a; b]) -> (forall a b c, P [a; b; c]) ->
  (forall a b c d t, P t -> P (a :: b :: c :: d :: t)) -> forall l, P l.
Proof.
  intros P H0 H1 H2 H3 H4 l. remember (length l) as n eqn:E. revert l E.
  induction n as [n IH] using lt_wf_ind. intros l E. subst n.
  destruct l as [|a [|b [|c [|d t]]]]; auto. apply H4. apply (IH (length t)); cbn; [lia|reflexivity].
Qed.

(** ** The alphabet *)
Lemma b64_val_char : forall v, 0 <= v < 64 -> b64_val (b64_char v) = Some v.
Proof.
  intros v H. unfold b64_char, b64_val.
  destruct (v <? 26) eqn:E1; [replace ((65 <=? 65 + v) && (65 + v <=? 90)) with true by lia; f_equal; lia|].
  destruct (v <? 52) eqn:E2.
  { replace ((65 <=? 97 + (v - 26)) && (97 + (v - 26) <=? 90)) with false by lia.
    replace ((97 <=? 97 + (v - 26)) && (97 + (v - 26) <=? 122)) with true by lia. f_equal. lia. }
  destruct (v <? 62) eqn:E3.
  { replace ((65 <=? 48 + (v - 52)) && (48 + (v - 52) <=? 90)) with false by lia.
    replace ((97 <=? 48 + (v - 52)) && (48 + (v - 52) <=? 122)) with false by lia.
    replace ((48 <=? 48 + (v - 52)) && (48 + (v - 52) <=? 57)) with true by lia. f_equal. lia. }
  assert (v = 62 \/ v = 63) as [-> | ->] by lia; reflexivity.
Qed.

Lemma b64_val_range : forall c v, b64_val c = Some v -> 0 <= v < 64.
Proof.
  intros c v. unfold b64_val.
  destruct ((65 <=? c) && (c <=? 90)) eqn:E1; [intro H; inversion H; lia|].
  destruct ((97 <=? c) && (c <=? 122)) eqn:E2; [intro H; inversion H; lia|].
  destruct ((48 <=? c) && (c <=? 57)) eqn:E3; [intro H; inversion H; lia|].
  destruct (c =? 43); [intro H; inversion H; lia|]. destruct (c =? 47); intro H; inversion H; lia.
Qed.

(** Characters of an encoding: printable, not white space. *)
Definition b64_txt (c : Z) : Prop := 43 <= c <= 122.
Lemma b64_char_txt : forall v, 0 <= v < 64 -> b64_txt (b64_char v) /\ b64_char v <> 61.
Proof.
  intros v H. unfold b64_char, b64_txt.
  destruct (v <? 26) eqn:E1; [lia|]. destruct (v <? 52) eqn:E2; [lia|].
  destruct (v <? 62) eqn:E3; [lia|]. destruct (v =? 62); lia.
Qed.

Lemma b64_encode_txt : forall d, all_bytes d -> Forall b64_txt (b64_encode d).
Proof.
  induction d as [|a|a b|a b c t IH] using list3_ind; intro H; cbn [b64_encode].
  - constructor.
  - inversion H; subst. unfold is_byte in *.
    repeat constructor; try apply b64_char_txt; unfold b64_txt; try lia.
  - inversion H as [|? ? Ha H']; subst. inversion H' as [|? ? Hb _]; subst. unfold is_byte in *.
    repeat constructor; try apply b64_char_txt; unfold b64_txt; try lia.
  - inversion H as [|? ? Ha H']; subst. inversion H' as [|? ? Hb H'']; subst. inversion H'' as [|? ? Hc Ht]; subst. unfold is_byte in *.
    do 4 (constructor; [apply b64_char_txt; lia|]). now apply IH.
Qed.

Lemma b64_encode_len : forall d, len (b64_encode d) = 4 * ((len d + 2) / 3).
Proof.
  induction d as [|a|a b|a b c t IH] using list3_ind; cbn [b64_encode]; try reflexivity.
  rewrite !len_cons, IH. lia.
Qed.

(** The last four characters carry the padding. *)
Lemma b64_encode_tail : forall d, all_bytes d -> d <> [] ->
  exists p w x y z, b64_encode d = p ++ [w; x; y; z] /\ len p mod 4 = 0 /\ x <> 61 /\
    (len d mod 3 = 0 /\ y <> 61 /\ z <> 61
     \/ len d mod 3 = 1 /\ y = 61 /\ z = 61
     \/ len d mod 3 = 2 /\ y <> 61 /\ z = 61).
Proof.
  induction d as [|a|a b|a b c t IH] using list3_ind; intros H Hne; cbn [b64_encode].
  - congruence.
  - exists [], (b64_char (a / 4)), (b64_char (a mod 4 * 16)), 61, 61. inversion H; subst. unfold is_byte in *.
    repeat split; [apply b64_char_txt; lia|]. right. left. auto.
  - inversion H as [|? ? Ha H']; subst. inversion H' as [|? ? Hb _]; subst. unfold is_byte in *.
    eexists [], _, _, _, _. split; [reflexivity|]. split; [reflexivity|]. split; [apply b64_char_txt; lia|].
    right. right. repeat split. apply b64_char_txt. lia.
  - inversion H as [|? ? Ha H']; subst. inversion H' as [|? ? Hb H'']; subst. inversion H'' as [|? ? Hc Ht]; subst. unfold is_byte in *.
    destruct t as [|e t].
    + cbn [b64_encode]. eexists [], _, _, _, _. split; [reflexivity|]. split; [reflexivity|].
      split; [apply b64_char_txt; lia|]. left. repeat split; apply b64_char_txt; lia.
    + destruct (IH Ht ltac:(discriminate)) as (p & w & x & y & z & E & Lp & Hx & Hd).
      rewrite E. eexists (_ :: _ :: _ :: _ :: p), w, x, y, z. split; [reflexivity|].
      split; [rewrite !len_cons; lia|]. split; [exact Hx|].
      rewrite !len_cons in *. destruct Hd as [(D & Q)|[(D & Q)|(D & Q)]]; [left|right; left|right; right]; (split; [lia|exact Q]).
Qed.

(** ** Scanning helpers *)
Lemma filter_nonspace : forall s, Forall b64_txt s -> filter (fun c => negb (isspace c)) s = s.
Proof.
  induction s as [|c s IH]; intro H; [reflexivity|]. inversion H; subst. cbn.
  replace (isspace c) with false by (unfold isspace, b64_txt in *; lia). cbn. f_equal. now apply IH.
Qed.
Lemma filter_app' : forall (f : Z -> bool) a b, filter f (a ++ b) = filter f a ++ filter f b.
Proof. intros. apply filter_app. Qed.

Lemma last_non_ws_app : forall a c ws rb, isspace c = false -> Forall (fun x => isspace x = true) ws ->
  last_non_ws (length ((a ++ [c]) ++ ws)) ((a ++ [c]) ++ ws) rb = Ok (len a).
Proof.
  intros a c ws rb Hc Hws. rewrite app_length.
  assert (P : forall k, (k <= length ws)%nat ->
     last_non_ws (length (a ++ [c]) + k) ((a ++ [c]) ++ ws) rb = Ok (len a)).
  { induction k as [|k IH]; intro Hk.
    - rewrite Nat.add_0_r, app_length. cbn [length]. rewrite Nat.add_1_r. cbn [last_non_ws].
      rewrite app_nth1 by (rewrite app_length; cbn; lia). rewrite app_nth2, Nat.sub_diag by lia. cbn [nth].
      rewrite Hc. reflexivity.
    - rewrite Nat.add_succ_r. cbn [last_non_ws]. rewrite app_nth2 by lia.
      replace (length (a ++ [c]) + k - length (a ++ [c]))%nat with k by lia.
      rewrite Forall_forall in Hws. rewrite (Hws (nth k ws 0)) by (apply nth_In; lia). apply IH. lia. }
  now apply P.
Qed.

Lemma first_lf_none : forall s i, Forall b64_txt s -> first_lf s i = None.
Proof.
  induction s as [|c s IH]; intros i H; [reflexivity|]. inversion H; subst. cbn.
  replace (c =? 10) with false by (unfold b64_txt in *; lia). now apply IH.
Qed.
Lemma first_lf_app : forall s t i, Forall b64_txt s -> first_lf (s ++ 10 :: t) i = Some (i + len s).
Proof.
  induction s as [|c s IH]; intros t i H; cbn [app first_lf].
  - cbn. f_equal. unfold len. cbn. lia.
  - inversion H; subst. replace (c =? 10) with false by (unfold b64_txt in *; lia).
    rewrite IH by assumption. f_equal. rewrite len_cons. lia.
Qed.

Lemma firstn_txt : forall n s, Forall b64_txt s -> Forall b64_txt (firstn n s).
Proof. intros n s H. rewrite <- (firstn_skipn n s) in H. now apply Forall_app in H. Qed.
Lemma skipn_txt : forall n s, Forall b64_txt s -> Forall b64_txt (skipn n s).
Proof. intros n s H. rewrite <- (firstn_skipn n s) in H. now apply Forall_app in H. Qed.

Lemma b64_lines_filter : forall f s, (length s <= f)%nat -> Forall b64_txt s ->
  filter (fun c => negb (isspace c)) (b64_lines f s) = s.
Proof.
  induction f as [|f IH]; intros s Hf H; [destruct s; [reflexivity|cbn in Hf; lia]|].
  cbn [b64_lines]. destruct s as [|c s]; [reflexivity|].
  rewrite !filter_app', filter_nonspace by now apply firstn_txt. cbn [filter isspace].
  change (isspace 10) with true. cbn [negb app].
  rewrite IH.
  - apply firstn_skipn.
  - rewrite skipn_length. cbn [length] in *. lia.
  - now apply skipn_txt.
Qed.

Lemma b64_lines_fuel : forall f1 f2 s, (length s <= f1)%nat -> (length s <= f2)%nat -> b64_lines f1 s = b64_lines f2 s.
Proof.
  induction f1 as [|f1 IH]; intros f2 s H1 H2.
  - destruct s; [|cbn in H1; lia]. destruct f2; reflexivity.
  - destruct f2 as [|f2]; [destruct s; [reflexivity|cbn in H2; lia]|].
    cbn [b64_lines]. destruct s as [|c s]; [reflexivity|]. do 2 f_equal. 
    apply IH; rewrite skipn_length; cbn [length] in *; lia.
Qed.

Lemma b64_wrap_short : forall s, s <> [] -> len s <= 64 -> b64_wrap s = s ++ [10].
Proof.
  intros s Hne H. unfold b64_wrap. destruct s as [|c s]; [congruence|]. cbn [length b64_lines].
  unfold len in H. rewrite firstn_all2, skipn_all2 by lia.
  replace (b64_lines (length s) []) with (@nil Z) by (destruct (length s); reflexivity). reflexivity.
Qed.
Lemma b64_wrap_long : forall s, 64 < len s -> b64_wrap s = firstn 64 s ++ 10 :: b64_wrap (skipn 64 s).
Proof.
  intros s H. unfold b64_wrap at 1. unfold len in H. destruct s as [|c s]; [cbn in H; lia|].
  cbn [length b64_lines]. do 2 f_equal. unfold b64_wrap. cbn [app]. f_equal.
  apply b64_lines_fuel; rewrite skipn_length; cbn [length] in *; lia.
Qed.

Lemma b64_wrap_tail : forall n p q, (length p <= n)%nat -> len q = 4 -> len p mod 4 = 0 ->
  exists p', b64_wrap (p ++ q) = (p' ++ q) ++ [10] /\ len p <= len p'.
Proof.
  induction n as [n IH] using lt_wf_ind. intros p q Hn Hq Hp.
  destruct (Z_le_gt_dec (len (p ++ q)) 64) as [L|G].
  - exists p. split; [|lia]. apply b64_wrap_short; [|exact L]. destruct q; [discriminate|]. destruct p; discriminate.
  - rewrite b64_wrap_long by lia. rewrite len_app in G.
    rewrite firstn_app, skipn_app.
    replace (64 - length p)%nat with 0%nat by (unfold len in *; lia). change (firstn 0 q) with (@nil Z). change (skipn 0 q) with q. rewrite app_nil_r.
    destruct (IH (length (skipn 64 p)) ltac:(rewrite skipn_length; unfold len in *; lia) (skipn 64 p) q ltac:(lia) Hq) as (p' & E & L).
    { rewrite len_skipn. replace (Z.max 0 (len p - Z.of_nat 64)) with (len p - 64) by lia. lia. }
    rewrite E. exists (firstn 64 p ++ 10 :: p'). split.
    + rewrite <- !app_assoc. reflexivity.
    + rewrite len_app, len_cons, len_firstn. rewrite len_skipn in L. lia.
Qed.

(** ** Decoding what was encoded *)
Section Dec.
Variable bio : bool -> bytes -> Z -> bytes.
Hypothesis Hbio : b64_bio bio.

Lemma decode_core : forall rb d text flag dst_size p w x y z ws,
  all_bytes d -> d <> [] -> len d <= dst_size ->
  text = (p ++ [w; x; y; z]) ++ ws -> Forall (fun c => isspace c = true) ws ->
  filter (fun c => negb (isspace c)) text = b64_encode d ->
  isspace z = false ->
  x <> 61 ->
  (len d mod 3 = 0 /\ y <> 61 /\ z <> 61 \/ len d mod 3 = 1 /\ y = 61 /\ z = 61 \/ len d mod 3 = 2 /\ y <> 61 /\ z = 61) ->
  (match first_lf text 0 with Some i => negb (i =? len text - 1) | None => false end) = flag ->
  bio (negb flag) text dst_size = d ->
  est_base64_decode bio rb text dst_size = Ok (len d, d).
Proof.
  intros rb d text flag dst_size p w x y z ws Hd Hne Hsz Et Hws Hf Hz Hx Hpad Hflag Hb.
  unfold est_base64_decode, est_base64_str_analyze. rewrite Hf, Hflag, b64_encode_len.
  pose proof (len_nonneg _ d). assert (0 < len d) by (destruct d; [congruence|rewrite len_cons in *; pose proof (len_nonneg _ d); lia]).
  set (mi := if negb (Z.rem dst_size 3 =? 0) then _ else _).
  assert (Hmi : mi = 4 * ((dst_size + 2) / 3)).
  { unfold mi. destruct (Z.rem dst_size 3 =? 0) eqn:E; cbn [negb]; lia. }
  replace (mi <? 4 * ((len d + 2) / 3)) with false by lia.
  replace (negb ((4 * ((len d + 2) / 3)) mod 4 =? 0)) with false by lia.
  assert (El : last_non_ws (length text) text rb = Ok (len p + 3)).
  { rewrite Et. replace ((p ++ [w; x; y; z]) ++ ws) with (((p ++ [w; x; y]) ++ [z]) ++ ws) by (now rewrite <- !app_assoc).
    rewrite last_non_ws_app by assumption. rewrite len_app. reflexivity. }
  rw_bind El. pose proof (len_nonneg _ p).
  replace (len p + 3 <? 2) with false by lia.
  assert (Ez : nth (Z.to_nat (len p + 3)) text 0 = z).
  { rewrite Et. rewrite <- app_assoc. replace (Z.to_nat (len p + 3)) with (length p + 3)%nat by (unfold len; lia).
    rewrite app_nth2_plus. reflexivity. }
  assert (Ey : nth (Z.to_nat (len p + 3 - 1)) text 0 = y).
  { rewrite Et. rewrite <- app_assoc. replace (Z.to_nat (len p + 3 - 1)) with (length p + 2)%nat by (unfold len; lia).
    rewrite app_nth2_plus. reflexivity. }
  rewrite Ez, Ey, Hb.
  set (pad := if z =? 61 then _ else _).
  assert (Hp : pad = 4 * ((len d + 2) / 3) * 3 / 4 - len d).
  { unfold pad. destruct Hpad as [(D & Q1 & Q2)|[(D & Q1 & Q2)|(D & Q1 & Q2)]].
    - replace (z =? 61) with false by lia. lia.
    - replace (z =? 61) with true by lia. replace (y =? 61) with true by lia. clear - D. lia.
    - replace (z =? 61) with true by lia. replace (y =? 61) with false by lia. clear - D. lia. }
  replace (negb (len d =? 3 * (4 * ((len d + 2) / 3)) / 4 - pad)) with false by lia.
  reflexivity.
Qed.

Lemma decode_line : forall rb d dst_size, all_bytes d -> d <> [] -> len d <= dst_size ->
  est_base64_decode bio rb (b64_encode d) dst_size = Ok (len d, d).
Proof.
  intros rb d dst_size Hd Hne Hsz.
  destruct (b64_encode_tail d Hd Hne) as (p & w & x & y & z & E & _ & Hx & Hpad).
  pose proof (b64_encode_txt d Hd) as Ht.
  eapply (decode_core rb d _ false dst_size p w x y z []); eauto.
  - now rewrite app_nil_r.
  - now apply filter_nonspace.
  - rewrite E in Ht. apply Forall_app in Ht as [_ Ht]. do 3 (apply Forall_inv_tail in Ht). apply Forall_inv in Ht.
    unfold isspace, b64_txt in *. lia.
  - now rewrite first_lf_none.
  - now apply (bio_line bio Hbio).
Qed.

Lemma decode_wrapped : forall rb d dst_size, all_bytes d -> d <> [] -> len d <= dst_size ->
  est_base64_decode bio rb (b64_wrap (b64_encode d)) dst_size = Ok (len d, d).
Proof.
  intros rb d dst_size Hd Hne Hsz.
  destruct (b64_encode_tail d Hd Hne) as (p & w & x & y & z & E & Lp & Hx & Hpad).
  pose proof (b64_encode_txt d Hd) as Ht.
  destruct (b64_wrap_tail (length p) p [w; x; y; z] (le_n _) eq_refl Lp) as (p' & Ew & Lp').
  rewrite <- E in Ew.
  assert (Hz : isspace z = false).
  { rewrite E in Ht. apply Forall_app in Ht as [_ Ht]. do 3 (apply Forall_inv_tail in Ht). apply Forall_inv in Ht.
    unfold isspace, b64_txt in *. lia. }
  assert (Hfil : filter (fun c => negb (isspace c)) (b64_wrap (b64_encode d)) = b64_encode d).
  { unfold b64_wrap. apply b64_lines_filter; auto. }
  assert (Hene : b64_encode d <> []) by (rewrite E; destruct p; discriminate).
  destruct (Z_le_gt_dec (len (b64_encode d)) 64) as [L|G].
  - eapply (decode_core rb d _ false dst_size p' w x y z [10]); eauto.
    + rewrite b64_wrap_short by assumption. rewrite first_lf_app by assumption.
      rewrite len_app. change (len (A:=Z) [10]) with 1. lia.
    + rewrite b64_wrap_short by assumption. now apply (bio_line_lf bio Hbio).
  - eapply (decode_core rb d _ true dst_size p' w x y z [10]); eauto.
    + rewrite b64_wrap_long at 1 by lia. rewrite first_lf_app by now apply firstn_txt.
      rewrite Ew, !len_app. change (len (A:=Z) [10]) with 1. change (len [w; x; y; z]) with 4.
      rewrite len_firstn. rewrite E, len_app in G. change (len [w; x; y; z]) with 4 in G. rewrite E, len_app. lia.
    + now apply (bio_lines bio Hbio).
Qed.

Theorem decode_bounded : forall rb src dst_size n d, 0 <= dst_size ->
  est_base64_decode bio rb src dst_size = Ok (n, d) -> 0 <= n <= dst_size /\ n = len d /\ all_bytes d.
Proof.
  intros rb src dst_size n d Hs. unfold est_base64_decode.
  destruct (est_base64_str_analyze src) as [[lnw l] nl].
  set (mi := if negb _ then _ else _). clearbody mi.
  destruct (mi <? lnw); [intro H; inversion H; subst; split; [lia|split; [reflexivity|constructor]]|].
  destruct (negb (lnw mod 4 =? 0)); [intro H; inversion H; subst; split; [lia|split; [reflexivity|constructor]]|].
  destruct (last_non_ws _ _ _) as [idx|]; [|discriminate]. cbn [bind].
  destruct (idx <? 2); [intro H; inversion H; subst; split; [lia|split; [reflexivity|constructor]]|].
  destruct (negb _); [intro H; inversion H; subst; split; [lia|split; [reflexivity|constructor]]|].
  intro H. inversion H; subst. pose proof (bio_len bio Hbio (negb nl) src dst_size Hs).
  pose proof (len_nonneg _ (bio (negb nl) src dst_size)). split; [lia|split; [reflexivity|]]. apply (bio_bytes bio Hbio).
Qed.

End Dec.

Lemma firstn_S_nth : forall (l : bytes) n, (n < length l)%nat -> firstn (S n) l = firstn n l ++ [nth n l 0].
Proof.
  induction l as [|x l IH]; intros n H; [cbn in H; lia|]. destruct n as [|n]; [reflexivity|].
  cbn in H. change (firstn (S (S n)) (x :: l)) with (x :: firstn (S n) l). rewrite IH by lia. reflexivity.
Qed.
Lemma last_non_ws_safe : forall n src rb, rb = true \/ (exists c, In c (firstn n src) /\ isspace c = false) ->
  (n <= length src)%nat -> exists i, last_non_ws n src rb = Ok i.
Proof.
  induction n as [|n IH]; intros src rb H Hn; cbn [last_non_ws].
  - destruct H as [->|(c & [] & _)]. eauto.
  - destruct (isspace (nth n src 0)) eqn:E; [|eauto]. apply IH; [|lia].
    destruct H as [H|(c & Hin & Hc)]; [now left|right].
    rewrite (firstn_S_nth src n) in Hin by lia. apply in_app_iff in Hin as [Hin|[<-|[]]]; [eauto|congruence].
Qed.

(** ** Encoding *)
Lemma b64_wrap_len : forall n s, (length s <= n)%nat -> len (b64_wrap s) = len s + (len s + 63) / 64.
Proof.
  induction n as [n IH] using lt_wf_ind. intros s Hn.
  destruct (Z_le_gt_dec (len s) 64) as [L|G].
  - destruct s as [|c s]; [reflexivity|]. rewrite b64_wrap_short by (discriminate || assumption).
    rewrite len_app. change (len (A:=Z) [10]) with 1. rewrite len_cons in *. pose proof (len_nonneg _ s). lia.
  - rewrite b64_wrap_long by lia. rewrite len_app, len_cons, len_firstn.
    rewrite (IH (length (skipn 64 s))); [| rewrite skipn_length; unfold len in *; lia|lia].
    rewrite len_skipn. lia.
Qed.

Lemma bio_text_len : forall src nl,
  len (bio_b64_text src nl) = 4 * ((len src + 2) / 3) + (if nl then (4 * ((len src + 2) / 3) + 63) / 64 else 0).
Proof.
  intros src nl. unfold bio_b64_text. destruct nl.
  - rewrite (b64_wrap_len _ _ (le_n _)), b64_encode_len. reflexivity.
  - rewrite b64_encode_len. lia.
Qed.

Lemma encode_fits : forall src dst max (nl : bool), src <> [] -> len dst = max -> len (bio_b64_text src nl) < max ->
  est_base64_encode src dst max nl =
  Ok (len (bio_b64_text src nl), bio_b64_text src nl ++ 0 :: skipn (S (length (bio_b64_text src nl))) dst).
Proof.
  intros src dst max nl Hne Hd Hl. unfold est_base64_encode.
  pose proof (bio_text_len src nl) as Hlen. set (text := bio_b64_text src nl) in *. clearbody text.
  assert (Hs : 0 < len src) by (destruct src; [congruence|rewrite len_cons; pose proof (len_nonneg _ src); lia]).
  assert (0 <= (if nl then (4 * ((len src + 2) / 3) + 63) / 64 else 0)) by (destruct nl; lia).
  replace (Z.quot (max * 3) 4 + 1 <? len src) with false by lia.
  replace (len src =? 0) with false by lia. cbv zeta.
  replace (max <? len text) with false by lia. replace (len dst <? len text) with false by lia. cbn [bind].
  rewrite wr_ok; [cbn [bind]|].
  - f_equal. f_equal. unfold len. rewrite Nat2Z.id.
    rewrite set_nth_split by (rewrite app_length, skipn_length; unfold len in *; lia).
    rewrite firstn_app, Nat.sub_diag, firstn_all2 by lia. cbn [firstn]. rewrite app_nil_r. f_equal. f_equal.
    rewrite skipn_app, skipn_all2 by lia. replace (S (length text) - length text)%nat with 1%nat by lia.
    cbn [app]. clear. revert dst. generalize (length text) as n. induction n as [|n IH]; intros [|x dst]; try reflexivity.
    exact (IH dst).
  - rewrite len_app, len_skipn. pose proof (len_nonneg _ text). unfold len in *. lia.
Qed.

Lemma encode_ok_iff : forall src dst max (nl : bool), len dst = max ->
  (est_base64_encode src dst max nl <> UB <->
   src = [] \/ (max * 3) / 4 + 1 < len src \/ len (bio_b64_text src nl) < max).
Proof.
  intros src dst max nl Hd. pose proof (len_nonneg _ dst).
  destruct src as [|c src'].
  { split; [auto|]. intros _. unfold est_base64_encode. change (len (@nil Z)) with 0.
    replace (Z.quot (max * 3) 4 + 1 <? 0) with false by lia. discriminate. }
  set (src := c :: src') in *. assert (Hs : 0 < len src) by (unfold src; rewrite len_cons; pose proof (len_nonneg _ src'); lia).
  assert (Hne : src <> []) by discriminate. clearbody src.
  destruct (Z_lt_ge_dec ((max * 3) / 4 + 1) (len src)) as [A|A].
  { split; [auto|]. intros _. unfold est_base64_encode.
    replace (Z.quot (max * 3) 4 + 1 <? len src) with true by lia. discriminate. }
  destruct (Z_lt_ge_dec (len (bio_b64_text src nl)) max) as [B|B].
  { split; [auto|]. intros _. rewrite encode_fits by assumption. discriminate. }
  split; [|intros [C|[C|C]]; [congruence|lia|lia]].
  intro Hn. exfalso. apply Hn. unfold est_base64_encode.
  replace (Z.quot (max * 3) 4 + 1 <? len src) with false by lia.
  replace (len src =? 0) with false by lia. cbv zeta.
  set (text := bio_b64_text src nl) in *. clearbody text.
  destruct (max <? len text) eqn:E1.
  - cbn [bind]. rewrite wr_len. replace ((0 <=? len text) && (len text <? len dst)) with false by lia. reflexivity.
  - replace (len dst <? len text) with false by lia. cbn [bind]. rewrite wr_len.
    rewrite len_app, len_skipn. replace ((0 <=? len text) && _) with false by (unfold len in *; lia). reflexivity.
Qed.

(** ** RFC 4648 decoding inverts encoding; the BIO contract is satisfiable *)
Lemma b64_char_not_pad : forall v, 0 <= v < 64 -> (b64_char v =? 61) = false.
Proof. intros v H. destruct (b64_char_txt v H). lia. Qed.

Lemma b64_decode_encode : forall d, all_bytes d -> b64_decode (b64_encode d) = Some d.
Proof.
  induction d as [|a|a b|a b c t IH] using list3_ind; intro H; cbn [b64_encode b64_decode].
  - reflexivity.
  - inversion H; subst. unfold is_byte in *. rewrite !b64_val_char by lia. change (61 =? 61) with true. cbn [andb].
    f_equal. f_equal. lia.
  - inversion H as [|? ? Ha H']; subst. inversion H' as [|? ? Hb _]; subst. unfold is_byte in *.
    rewrite !b64_val_char by lia. rewrite b64_char_not_pad by lia. change (61 =? 61) with true. cbn [andb].
    f_equal. f_equal; [lia|]. f_equal. lia.
  - inversion H as [|? ? Ha H']; subst. inversion H' as [|? ? Hb H'']; subst. inversion H'' as [|? ? Hc Ht]; subst. unfold is_byte in *.
    rewrite !b64_val_char by lia. rewrite !b64_char_not_pad by lia. cbn [andb].
    rewrite IH by assumption. f_equal. f_equal; [lia|]. f_equal; [lia|]. f_equal. lia.
Qed.

Lemma b64_decode_bytes : forall s d, b64_decode s = Some d -> all_bytes d.
Proof.
  induction s as [|a|a b|a b c|a b c e t IH] using list4_ind; intros d H; cbn [b64_decode] in H; try discriminate.
  - inversion H. constructor.
  - destruct (b64_val a) as [x|] eqn:Ea; [|discriminate]. destruct (b64_val b) as [y|] eqn:Eb; [|discriminate].
    apply b64_val_range in Ea, Eb.
    destruct ((c =? 61) && (e =? 61)).
    { destruct t; inversion H. repeat constructor; unfold is_byte; lia. }
    destruct (b64_val c) as [z|] eqn:Ec; [|discriminate]. apply b64_val_range in Ec.
    destruct (e =? 61).
    { destruct t; inversion H. repeat constructor; unfold is_byte; lia. }
    destruct (b64_val e) as [w|] eqn:Ee; [|discriminate]. apply b64_val_range in Ee.
    destruct (b64_decode t) as [r|] eqn:Er; [|discriminate]. inversion H.
    do 3 (constructor; [unfold is_byte; lia|]). now apply IH.
Qed.

Definition rfc_bio (f : bool) (s : bytes) (n : Z) : bytes :=
  match b64_decode (filter (fun c => negb (isspace c)) s) with
  | Some d => firstn (Z.to_nat n) d
  | None => []
  end.

Lemma rfc_bio_ok : b64_bio rfc_bio.
Proof.
  assert (F : forall (d : bytes) n, len d <= n -> firstn (Z.to_nat n) d = d).
  { intros d n H. apply firstn_all2. unfold len in H. lia. }
  constructor.
  - intros f s n H. unfold rfc_bio. destruct (b64_decode _); [rewrite len_firstn; lia|exact H].
  - intros f s n. unfold rfc_bio. destruct (b64_decode _) as [r|] eqn:E; [|constructor].
    apply b64_decode_bytes in E. rewrite <- (firstn_skipn (Z.to_nat n) r) in E. now apply Forall_app in E.
  - intros d n Hd Hn. unfold rfc_bio. rewrite filter_nonspace by now apply b64_encode_txt.
    rewrite b64_decode_encode by assumption. now apply F.
  - intros d n Hd Hn. unfold rfc_bio. rewrite filter_app', filter_nonspace by now apply b64_encode_txt.
    cbn [filter]. change (isspace 10) with true. cbn [negb]. rewrite app_nil_r.
    rewrite b64_decode_encode by assumption. now apply F.
  - intros d n Hd Hn. unfold rfc_bio, b64_wrap. rewrite b64_lines_filter by (auto using b64_encode_txt).
    rewrite b64_decode_encode by assumption. now apply F.
Qed.

(** Round trip through both functions. *)
Theorem base64_roundtrip : forall bio, b64_bio bio ->
  forall d nl dst n out rb dst_size, all_bytes d -> d <> [] ->
  est_base64_encode d dst (len dst) nl = Ok (n, out) -> 0 < n -> n < len dst -> len d <= dst_size ->
  exists text, cstr out = Ok text /\ len text = n
    /\ est_base64_decode bio rb text dst_size = Ok (len d, d).
Proof.
  intros bio Hb d nl dst n out rb dst_size Hd Hne He Hn Hfit Hsz.
  destruct (Z_lt_ge_dec (len (bio_b64_text d nl)) (len dst)) as [L|G].
  - rewrite encode_fits in He by auto. apply (f_equal (fun r => match r with Ok a => a | UB => (0, []) end)) in He.
    apply pair_equal_spec in He as [<- <-]. exists (bio_b64_text d nl). repeat split.
    + apply cstr_app_nul. intro H0. pose proof (b64_encode_txt d Hd) as Ht. unfold bio_b64_text in H0. destruct nl.
      * assert (Q : Forall (fun c => c = 10 \/ b64_txt c) (b64_wrap (b64_encode d))).
        { unfold b64_wrap. generalize (length (b64_encode d)) as f. clear - Ht. revert Ht. generalize (b64_encode d) as s.
          intros s Ht f. revert s Ht. induction f as [|f IH]; intros s Ht; [constructor|]. cbn [b64_lines].
          destruct s as [|c s]; [constructor|]. apply Forall_app. split.
          - eapply Forall_impl; [|apply firstn_txt; exact Ht]. cbn. auto.
          - constructor; [auto|]. apply IH. now apply skipn_txt. }
        rewrite Forall_forall in Q. apply Q in H0. unfold b64_txt in H0. lia.
      * rewrite Forall_forall in Ht. apply Ht in H0. unfold b64_txt in H0. lia.
    + unfold bio_b64_text. destruct nl; [now apply decode_wrapped|now apply decode_line].
  - exfalso. unfold est_base64_encode in He.
    destruct (_ <? len d); [inversion He; lia|]. destruct (len d =? 0); [inversion He; lia|].
    cbv zeta in He. destruct (if len dst <? _ then _ else _) as [d1|]; [|discriminate]. cbn [bind] in He.
    destruct (wr d1 _ 0) as [d2|]; [|discriminate]. cbn [bind] in He.
    apply (f_equal (fun r => match r with Ok a => fst a | UB => 0 end)) in He. cbn [fst] in He. lia.
Qed.

(** ** Hex *)
Lemma hexchar_eq : forall b, 0 <= b < 256 ->
  hexchar (Z.shiftr b 4) = hex_digit (b / 16) /\ hexchar (Z.land b 15) = hex_digit (b mod 16).
Proof.
  intros b Hb. rewrite Z.shiftr_div_pow2 by lia. change (2 ^ 4) with 16.
  change 15 with (Z.ones 4). rewrite Z.land_ones by lia. change (2 ^ 4) with 16.
  unfold hexchar, hex_digit. split; reflexivity.
Qed.

Lemma wr_mid : forall (a : bytes) x y t, wr (a ++ x :: t) (len a) y = Ok (a ++ y :: t).
Proof.
  intros a x y t. rewrite wr_ok by (rewrite len_app, len_cons; pose proof (len_nonneg _ a); pose proof (len_nonneg _ t); lia).
  unfold len. rewrite Nat2Z.id. rewrite set_nth_split by (rewrite app_length; cbn; lia).
  rewrite firstn_app, Nat.sub_diag, firstn_all2 by lia. cbn [firstn]. rewrite app_nil_r. f_equal. f_equal. f_equal.
  rewrite skipn_app, skipn_all2 by lia. replace (S (length a) - length a)%nat with 1%nat by lia. reflexivity.
Qed.

Lemma hex_spec : forall src pre post, all_bytes src -> len post = 2 * len src + 1 ->
  forall rest, est_hex_to_str (pre ++ post ++ rest) (len pre) src = Ok (pre ++ hex_string src ++ 0 :: rest).
Proof.
  induction src as [|b src IH]; intros pre post Hb Hl rest.
  - destruct post as [|p [|q post]]; rewrite ?len_cons, ?len_nil in Hl.
    + discriminate.
    + cbn [est_hex_to_str app]. rewrite wr_mid. reflexivity.
    + pose proof (len_nonneg _ post). lia.
  - inversion Hb as [|? ? B1 B2]; subst. rewrite len_cons in Hl.
    destruct post as [|p [|q post]]; rewrite ?len_cons, ?len_nil in Hl;
      try (pose proof (len_nonneg _ src); lia).
    cbn [est_hex_to_str app].
    pose proof (len_nonneg _ pre). pose proof (len_nonneg _ post). pose proof (len_nonneg _ rest).
    rw_bind (wr_mid pre p (hexchar (Z.shiftr b 4)) (q :: post ++ rest)).
    pose proof (wr_mid (pre ++ [hexchar (Z.shiftr b 4)]) q (hexchar (Z.land b 15)) (post ++ rest)) as W2.
    rewrite <- app_assoc in W2. rewrite len_app in W2. change (len [hexchar (Z.shiftr b 4)]) with 1 in W2. cbn [app] in W2.
    rw_bind W2.
    destruct (hexchar_eq b ltac:(unfold is_byte in B1; lia)) as [E1 E2]. rewrite E1, E2.
    specialize (IH (pre ++ [hex_digit (b / 16); hex_digit (b mod 16)]) post B2 ltac:(lia) rest).
    rewrite <- !app_assoc in IH. rewrite len_app in IH. change (len [hex_digit (b / 16); hex_digit (b mod 16)]) with 2 in IH.
    cbn [app] in IH. unfold hex_string. cbn [flat_map app]. rewrite <- (app_assoc pre [_]). exact IH.
Qed.

Lemma hex_ub : forall src dst i, 0 <= i -> len dst < i + 2 * len src + 1 -> est_hex_to_str dst i src = UB.
Proof.
  induction src as [|b src IH]; intros dst i Hi Hl; cbn [est_hex_to_str].
  - change (len (@nil Z)) with 0 in Hl. rewrite wr_len. replace ((0 <=? i) && (i <? len dst)) with false by lia. reflexivity.
  - rewrite len_cons in Hl. rewrite wr_len at 1. destruct ((0 <=? i) && (i <? len dst)) eqn:E; [|reflexivity]. cbn [bind].
    rewrite wr_len at 1. destruct ((0 <=? i + 1) && _); [|reflexivity]. cbn [bind]. apply IH; [lia|]. rewrite !len_set_nth. lia.
Qed.

Lemma hex_digit_inj : forall a b, 0 <= a < 16 -> 0 <= b < 16 -> hex_digit a = hex_digit b -> a = b.
Proof.
  intros a b Ha Hb.
  assert (C : forall v, 0 <= v < 16 -> v = 0 \/ v = 1 \/ v = 2 \/ v = 3 \/ v = 4 \/ v = 5 \/ v = 6 \/ v = 7 \/ v = 8 \/ v = 9 \/ v = 10 \/ v = 11 \/ v = 12 \/ v = 13 \/ v = 14 \/ v = 15) by (intros; lia).
  assert (D : forall v, 0 <= v < 16 -> hex_digit v = if v <? 10 then 48 + v else 87 + v).
  { intros v Hv. destruct (C v Hv) as [->|[->|[->|[->|[->|[->|[->|[->|[->|[->|[->|[->|[->|[->|[->| ->]]]]]]]]]]]]]]]; reflexivity. }
  rewrite !D by assumption. destruct (a <? 10) eqn:E1, (b <? 10) eqn:E2; lia.
Qed.

Lemma hex_string_inj : forall a b, all_bytes a -> all_bytes b -> hex_string a = hex_string b -> a = b.
Proof.
  induction a as [|x a IH]; intros [|y b] Ha Hb E; try reflexivity; try discriminate.
  unfold hex_string in E. cbn [flat_map app] in E. inversion E as [[E1 E2 E3]].
  inversion Ha as [|? ? A1 A2]; inversion Hb as [|? ? B1 B2]; subst. unfold is_byte in *.
  apply hex_digit_inj in E1; [|lia|lia]. apply hex_digit_inj in E2; [|lia|lia].
  f_equal; [lia|]. now apply IH.
Qed.

(** ** The TLS binding value *)
Definition first_finished (own peer : bytes) (reused is_client : bool) : bytes :=
  if Bool.eqb is_client reused then peer else own.

Lemma uid_value : forall own peer reused (tls13 : bool) is_client f,
  f = first_finished own peer reused is_client -> f <> [] -> all_bytes f ->
  let max := if tls13 then 48 else 12 in
  (len f <= max ->
   est_get_tls_uid own peer reused tls13 is_client =
   Ok (Some (b64_encode f ++ repeat 0 (Z.to_nat ((if tls13 then 66 else 18) - len (b64_encode f))), len (b64_encode f))))
  /\ (max < len f -> est_get_tls_uid own peer reused tls13 is_client = Ok None).
Proof.
  intros own peer reused tls13 is_client f Ef Hne Hb max. unfold est_get_tls_uid.
  replace (if (is_client && negb reused) || (negb is_client && reused) then own else peer) with f
    by (subst f; unfold first_finished; destruct is_client, reused; reflexivity).
  clear Ef. pose proof (bio_text_len f true) as Hl. cbv zeta. pose proof (b64_encode_len f) as He.
  assert (Hf : 0 < len f) by (destruct f; [congruence|rewrite len_cons; pose proof (len_nonneg _ f); lia]).
  split; intro H.
  - assert (Hw : bio_b64_text f true = b64_encode f ++ [10]).
    { unfold bio_b64_text. apply b64_wrap_short; [|rewrite He; destruct tls13; lia].
      intro E0. rewrite E0 in He. change (len (@nil Z)) with 0 in He. lia. }
    rewrite Hw in *. rewrite len_app in *. change (len (A:=Z) [10]) with 1 in *.
    replace ((if tls13 then 65 else 17) <? len (b64_encode f) + 1) with false by (destruct tls13; lia).
    rewrite rd_ok by (rewrite len_app; change (len (A:=Z) [10]) with 1; lia). cbn [bind].
    rewrite app_nth2 by (unfold len in *; lia).
    replace (Z.to_nat (len (b64_encode f) + 1 - 1) - length (b64_encode f))%nat with O by (unfold len; lia).
    cbn [nth]. change (10 =? 10) with true. cbv iota.
    do 2 f_equal. replace (len (b64_encode f) + 1 - 1) with (len (b64_encode f)) by lia.
    apply pair_equal_spec. split; [|reflexivity].
    rewrite firstn_app, firstn_all2 by (unfold len; lia).
    replace (Z.to_nat (len (b64_encode f)) - length (b64_encode f))%nat with O by (unfold len; lia).
    cbn [firstn]. rewrite app_nil_r. f_equal. f_equal. destruct tls13; lia.
  - replace ((if tls13 then 65 else 17) <? len (bio_b64_text f true)) with true by (rewrite Hl; destruct tls13; lia).
    reflexivity.
Qed.

Lemma b64_encode_inj : forall a b, all_bytes a -> all_bytes b -> b64_encode a = b64_encode b -> a = b.
Proof.
  intros a b Ha Hb E. assert (Q : b64_decode (b64_encode a) = b64_decode (b64_encode b)) by congruence.
  rewrite !b64_decode_encode in Q by assumption. now inversion Q.
Qed.

(** Both ends of a session see the same two Finished messages, swapped. *)
Lemma uid_agree : forall cf sf reused tls13,
  est_get_tls_uid cf sf reused tls13 true = est_get_tls_uid sf cf reused tls13 false.
Proof. intros cf sf [] tls13; reflexivity. Qed.

(** ** Decoding never leaves its block when something readable precedes or some
    character is not white space *)
Lemma decode_safe : forall bio rb src dst_size,
  rb = true \/ (exists c, In c src /\ isspace c = false) ->
  is_ok (est_base64_decode bio rb src dst_size).
Proof.
  intros bio rb src dst_size H. unfold est_base64_decode.
  destruct (est_base64_str_analyze src) as [[lnw l] nl].
  destruct (_ <? lnw); [eexists; reflexivity|]. destruct (negb (lnw mod 4 =? 0)); [eexists; reflexivity|].
  destruct (last_non_ws_safe (length src) src rb) as [i E]; [rewrite firstn_all; exact H|lia|].
  rewrite E. cbn [bind]. destruct (i <? 2); [eexists; reflexivity|]. destruct (negb _); eexists; reflexivity.
Qed.

Lemma decode_blank : forall bio src dst_size, 0 <= dst_size ->
  (forall c, In c src -> isspace c = true) -> est_base64_decode bio false src dst_size = UB.
Proof.
  intros bio src dst_size Hs H. unfold est_base64_decode, est_base64_str_analyze.
  assert (F : filter (fun c => negb (isspace c)) src = []).
  { clear - H. induction src as [|c src IH]; [reflexivity|]. cbn [filter]. rewrite (H c (or_introl eq_refl)). cbn [negb].
    apply IH. intros; apply H; now right. }
  rewrite F. change (len (@nil Z)) with 0. change (0 mod 4 =? 0) with true. cbn [negb].
  set (mi := if negb (Z.rem dst_size 3 =? 0) then _ else _).
  assert (0 <= mi). { subst mi. pose proof (Z.quot_pos dst_size 3). destruct (negb _); lia. }
  replace (mi <? 0) with false by lia.
  assert (L : forall n, (n <= length src)%nat -> last_non_ws n src false = UB).
  { induction n as [|n IH]; intro Hn; [reflexivity|]. cbn [last_non_ws].
    rewrite (H (nth n src 0)) by (apply nth_In; lia). apply IH; lia. }
  rewrite L by lia. reflexivity.
Qed.

Lemma bio_text_len' : forall src nl, len (bio_b64_text src nl) = b64_text_len (len src) nl.
Proof. intros. rewrite bio_text_len. unfold b64_text_len. cbv zeta. destruct nl; lia. Qed.

Lemma encode_refuted : exists src dst,
  src <> [] /\ all_bytes src /\ est_base64_encode src dst (len dst) false = UB.
Proof.
  exists [1;2;3], [0;0;0;0]. split; [discriminate|]. split; [|reflexivity].
  repeat constructor; unfold is_byte; lia.
Qed.
Lemma encode_ok_iff' : forall src dst max (nl : bool), len dst = max ->
  (est_base64_encode src dst max nl <> UB <->
   src = [] \/ (max * 3) / 4 + 1 < len src \/ b64_text_len (len src) nl < max).
Proof. intros. rewrite encode_ok_iff by assumption. now rewrite bio_text_len'. Qed.
Lemma encode_fits' : forall src dst max (nl : bool), src <> [] -> len dst = max ->
  b64_text_len (len src) nl < max ->
  let text := if nl then b64_wrap (b64_encode src) else b64_encode src in
  est_base64_encode src dst max nl = Ok (len text, text ++ 0 :: skipn (S (length text)) dst).
Proof. intros src dst max nl H1 H2 H3. rewrite <- bio_text_len' in H3. exact (encode_fits _ _ _ _ H1 H2 H3). Qed.
Lemma encode_twice : forall src dst (nl : bool), 5 <= len src -> len dst = 2 * len src ->
  let text := if nl then b64_wrap (b64_encode src) else b64_encode src in
  est_base64_encode src dst (2 * len src) nl = Ok (len text, text ++ 0 :: skipn (S (length text)) dst).
Proof.
  intros src dst nl H1 H2. apply encode_fits'; [intros ->; change (len (@nil Z)) with 0 in H1; lia|exact H2|].
  unfold b64_text_len. cbv zeta. destruct nl; lia.
Qed.
Lemma encode_refuse : forall src dst max (nl : bool), 0 <= max -> (max * 3) / 4 + 1 < len src ->
  est_base64_encode src dst max nl = Ok (0, dst).
Proof.
  intros src dst max nl H0 H. unfold est_base64_encode.
  replace (Z.quot (max * 3) 4 + 1 <? len src) with true by lia. reflexivity.
Qed.

Lemma hex_exact : forall src dst rest, all_bytes src -> len dst = 2 * len src + 1 ->
  est_hex_to_str (dst ++ rest) 0 src = Ok (hex_string src ++ 0 :: rest).
Proof. intros src dst rest H L. exact (hex_spec src [] dst H L rest). Qed.
Lemma hex_room : forall src dst, all_bytes src ->
  (is_ok (est_hex_to_str dst 0 src) <-> 2 * len src + 1 <= len dst).
Proof.
  intros src dst H. pose proof (len_nonneg _ src). split; intro G.
  - destruct (Z_lt_ge_dec (len dst) (0 + 2 * len src + 1)); [|lia].
    rewrite hex_ub in G by lia. destruct G; discriminate.
  - rewrite <- (firstn_skipn (Z.to_nat (2 * len src + 1)) dst). rewrite hex_exact; [eexists; reflexivity|assumption|].
    rewrite len_firstn. lia.
Qed.

Lemma uid_distinct : forall (cf sf : bytes) (reused tls13 : bool) (cf' sf' : bytes) (reused' : bool) uid n,
  let f := if reused then sf else cf in let f' := if reused' then sf' else cf' in
  f <> [] -> f' <> [] -> all_bytes f -> all_bytes f' ->
  est_get_tls_uid cf sf reused tls13 true = Ok (Some (uid, n)) ->
  est_get_tls_uid cf' sf' reused' tls13 true = Ok (Some (uid, n)) -> f = f'.
Proof.
  intros cf sf reused tls13 cf' sf' reused' uid n f f' N N' B B' E E'.
  assert (Q : forall (own peer : bytes) (r : bool) g, g = (if r then peer else own) -> g <> [] -> all_bytes g ->
    est_get_tls_uid own peer r tls13 true = Ok (Some (uid, n)) -> b64_encode g = firstn (Z.to_nat n) uid).
  { intros own peer r g Eg Ng Bg H.
    destruct (uid_value own peer r tls13 true g) as [V1 V2]; [subst g; unfold first_finished; destruct r; reflexivity|assumption|assumption|].
    cbv zeta in *. destruct (Z_le_gt_dec (len g) (if tls13 then 48 else 12)) as [L|G].
    - rewrite V1 in H by exact L. injection H as <- <-. rewrite firstn_app.
      unfold len. rewrite Nat2Z.id, firstn_all, Nat.sub_diag. cbn [firstn]. now rewrite app_nil_r.
    - rewrite V2 in H by lia. discriminate. }
  apply b64_encode_inj; [assumption|assumption|].
  rewrite (Q cf sf reused f), (Q cf' sf' reused' f'); auto.
Qed.
