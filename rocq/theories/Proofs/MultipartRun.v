(** The multipart parser on well-formed bodies. *)
From Coq Require Import String ZArith List Bool Lia ZifyBool ZifyNat.
From Verif Require Import Base Spec.Http Spec.Client Spec.Multipart Model.CLib Model.EstErr Model.HttpServer Model.ClientHttp Model.Multipart Proofs.HttpParse.
Import ListNotations.
Open Scope Z_scope.

Lemma sub_mid : forall a d b, sub (a ++ d ++ b) (len a) (len d) = Ok d.
Proof.
  intros. unfold sub. rewrite !len_app. pose proof (len_nonneg _ a). pose proof (len_nonneg _ d). pose proof (len_nonneg _ b).
  replace (_ && _) with true by lia. unfold len. rewrite !Nat2Z.id, skipn_app, skipn_all, Nat.sub_diag. cbn [app skipn].
  rewrite firstn_app, Nat.sub_diag, firstn_all. cbn. now rewrite app_nil_r.
Qed.
Lemma sub_mid' : forall m a d b o n, m = a ++ d ++ b -> o = len a -> n = len d -> sub m o n = Ok d.
Proof. intros; subst. apply sub_mid. Qed.
Lemma rd_at : forall m a c b o, m = a ++ c :: b -> o = len a -> rd m o = Ok c.
Proof. intros; subst. apply rd_app. Qed.

Section Run.
Variable junk : bytes -> Z.
Variables (m : bytes) (o : Z) (bnd : bytes) (n : Z).
Notation turn' := (execute_turn junk m o bnd n).

(** ** Many turns *)
Inductive reach : Z -> parser -> Z -> parser -> Prop :=
| reach_refl : forall i p, reach i p i p
| reach_step : forall i p i' p' j q, i < n -> turn' i p = Ok (Next i' p') -> reach i' p' j q -> reach i p j q.
Lemma reach_one : forall i p i' p', i < n -> turn' i p = Ok (Next i' p') -> reach i p i' p'.
Proof. intros. eapply reach_step; eauto. constructor. Qed.
Lemma reach_trans : forall i p j q k r, reach i p j q -> reach j q k r -> reach i p k r.
Proof. induction 1; intro; [assumption|]. eapply reach_step; eauto. Qed.

Definition bonus (p : parser) : Z := match p_state p with s_part_data_almost_boundary | s_part_data_boundary => 1 | _ => 0 end.
Lemma cb_state : forall d p b q, part_data_cb junk d p = Ok (b, q) -> p_state q = p_state p /\ p_payloads q = p_payloads p /\ p_look q = p_look p
  /\ p_index q = p_index p /\ p_mark q = p_mark p.
Proof.
  intros d p b q H. unfold part_data_cb in H. destruct (multipart_get_data_ct p); [|inversion H; auto]. destruct (multipart_get_data_cte p); [|inversion H; auto].
  destruct (value_is _ _ _) as [b64|]; [|discriminate]. cbn [bind] in H. destruct b64; cbn [negb] in H; [|inversion H; auto].
  destruct (MULTIPART_PARSE_DATA_MAX <? len d); [inversion H; auto|]. destruct (value_is _ _ _) as [k|]; [|discriminate]. cbn [bind] in H.
  destruct k.
  - destruct (only_whitespace d); [inversion H; auto|]. cbv zeta in H. destruct (both_populated _); inversion H; auto.
  - destruct (value_is _ _ _) as [k|]; [|discriminate]. cbn [bind] in H. destruct k.
    + destruct (only_whitespace d); [inversion H; auto|]. cbv zeta in H. destruct (both_populated _); inversion H; auto.
    + destruct (both_populated _); inversion H; auto.
Qed.
Lemma emit_next : forall d i p go i' q, emit_part junk d i p go = Ok (Next i' q) -> exists r, part_data_cb junk d p = Ok (false, r) /\ go r = Next i' q.
Proof. intros. unfold emit_part in H. destruct (part_data_cb junk d p) as [[[|] r]|]; cbn [bind] in H; try discriminate. exists r. split; [reflexivity|]. now inversion H. Qed.
Lemma name_state : forall d p q, read_header_name d p = Ok q -> p_state q = p_state p.
Proof. unfold read_header_name. intros. destruct (_ <? _); inversion H. reflexivity. Qed.
Lemma value_state : forall d p q, read_header_value junk d p = Ok q -> p_state q = p_state p.
Proof. unfold read_header_value. intros d p q H. destruct (if prefixb _ _ then _ else _) as [[|]|]; cbn [bind] in H; try discriminate; [|inversion H; reflexivity]. destruct (_ <? _); inversion H. reflexivity. Qed.

Lemma start_measure : forall i c p i' q, at_start_boundary bnd i c p = Next i' q -> i' = i + 1 /\ (bonus p = 0 -> bonus q = 0).
Proof.
  unfold at_start_boundary. intros. repeat (destruct (_ =? _); [| ]); try discriminate H; inversion H; subst; auto.
Qed.
Lemma field_measure : forall i c p i' q, p_state p = s_header_field -> at_header_field m o n i c p = Ok (Next i' q) -> i' = i + 1 /\ bonus q = 0.
Proof.
  unfold at_header_field. intros i c p i' q E H. destruct (c =? CR); [inversion H; split; [auto|reflexivity]|]. destruct (c =? 58).
  { destruct (sub _ _ _); [|discriminate]. cbn [bind] in H. destruct (read_header_name _ _) eqn:R; [|discriminate]. inversion H. auto. }
  destruct (_ && _); [discriminate|]. destruct (_ && _); [discriminate|]. destruct (is_last n i).
  - destruct (sub _ _ _); [|discriminate]. cbn [bind] in H. destruct (read_header_name _ _) eqn:R; [|discriminate]. inversion H. subst. split; [reflexivity|].
    apply name_state in R. unfold bonus. now rewrite R, E.
  - inversion H. subst. split; [reflexivity|]. unfold bonus. now rewrite E.
Qed.
Lemma value_measure : forall i c p i' q, p_state p = s_header_value -> at_header_value junk m o n i c p = Ok (Next i' q) -> i' = i + 1 /\ bonus q = 0.
Proof.
  unfold at_header_value. intros i c p i' q E H. destruct (c =? CR).
  { destruct (sub _ _ _); [|discriminate]. cbn [bind] in H. destruct (read_header_value _ _ _) eqn:R; [|discriminate]. inversion H. auto. }
  destruct (is_last n i).
  - destruct (sub _ _ _); [|discriminate]. cbn [bind] in H. destruct (read_header_value _ _ _) eqn:R; [|discriminate]. inversion H. subst. split; [reflexivity|].
    apply value_state in R. unfold bonus. cbn in R. now rewrite R, E.
  - inversion H. subst. split; [reflexivity|]. unfold bonus. cbn. now rewrite E.
Qed.
Lemma data_measure : forall i c p i' q, p_state p = s_part_data -> at_part_data junk m o n i c p = Ok (Next i' q) -> i' = i + 1 /\ bonus q <= 1.
Proof.
  unfold at_part_data. intros i c p i' q E H. destruct (if c =? CR then _ else _) as [[|]|]; cbn [bind] in H; try discriminate.
  - destruct (sub _ _ _); [|discriminate]. cbn [bind] in H. apply emit_next in H as (r & _ & H). inversion H. split; [reflexivity|]. cbn. lia.
  - destruct (is_last n i).
    + destruct (sub _ _ _); [|discriminate]. cbn [bind] in H. apply emit_next in H as (r & R & H). inversion H; subst. apply cb_state in R as (R & _). split; [reflexivity|].
      unfold bonus. rewrite R, E. lia.
    + inversion H; subst. split; [reflexivity|]. unfold bonus. rewrite E. lia.
Qed.
Ltac simp := cbn [p_state set_state set_mark set_index set_look set_payloads p_payloads p_index].
Ltac bon := unfold bonus; simp.
Lemma turn_measure : forall i p i' q, turn' i p = Ok (Next i' q) -> 2 * (n - i') + bonus q < 2 * (n - i) + bonus p /\ i <= i'.
Proof.
  intros i p i' q H. unfold execute_turn in H. destruct (rd m (o + i)) as [c|]; [|discriminate]. cbn [bind] in H.
  destruct (p_state p) eqn:E.
  - inversion H as [H']. apply start_measure in H' as [-> B]. rewrite (B eq_refl). unfold bonus at 1. rewrite E. lia.
  - inversion H as [H']. apply start_measure in H' as [-> B]. assert (B0 : bonus p = 0) by (unfold bonus; rewrite E; reflexivity). rewrite (B B0), B0. lia.
  - apply field_measure in H as [-> ->]; [|reflexivity]. unfold bonus. rewrite E. lia.
  - apply field_measure in H as [-> ->]; [|assumption]. unfold bonus. rewrite E. lia.
  - destruct (c =? LF); inversion H; subst. unfold bonus. rewrite E. simp. destruct (p_seen_headers p); lia.
  - destruct (c =? SP). { inversion H; subst. unfold bonus. rewrite E. lia. } apply value_measure in H as [-> ->]; [|reflexivity]. unfold bonus. rewrite E. lia.
  - apply value_measure in H as [-> ->]; [|assumption]. unfold bonus. rewrite E. lia.
  - destruct (c =? LF); [|discriminate]. destruct (rd m (o + i + 1)) as [x|]; [|discriminate]. cbn [bind] in H. unfold bonus. rewrite E. destruct (x =? 45); inversion H; subst; bon; lia.
  - apply data_measure in H as [-> B]; [|reflexivity]. unfold bonus at 2. rewrite E. lia.
  - apply data_measure in H as [-> B]; [|assumption]. unfold bonus at 2. rewrite E. lia.
  - unfold at_almost_boundary in H. unfold bonus at 2; rewrite E; destruct (c =? LF).
    + inversion H; subst. unfold bonus. simp. destruct (p_payloads p =? 2); lia.
    + apply emit_next in H as (r & _ & H). inversion H; subst. unfold bonus. bon; lia.
  - unfold at_boundary in H. unfold bonus at 2. rewrite E. destruct (rd _ _) as [b|]; [|discriminate]. cbn [bind] in H. destruct (negb (b =? c)).
    + apply emit_next in H as (r & _ & H). inversion H; subst. unfold bonus. bon; lia.
    + destruct (_ <=? _); [discriminate|]. cbv zeta in H. inversion H; subst. unfold bonus. destruct (_ =? _); simp; try rewrite E; lia.
  - unfold bonus at 2; rewrite E; destruct (c =? 45); [inversion H; subst; bon; lia|]. destruct (c =? CR); inversion H; subst. bon; lia.
  - unfold bonus at 2; rewrite E; destruct (c =? LF); inversion H; subst. bon; lia.
  - unfold bonus at 2; rewrite E; destruct (c =? 45); inversion H; subst. bon; lia.
  - inversion H; subst. unfold bonus. rewrite E. lia.
Qed.
Lemma loop_reach : forall i p j q k r, reach i p j q -> j < n -> turn' j q = Ok (Stop k r) ->
  forall fuel, 2 * (n - i) + bonus p <= Z.of_nat fuel -> execute_loop junk fuel m o bnd n i p = Ok (k, r).
Proof.
  induction 1 as [i p|i p i' p' j q L T R IH]; intros Lj St fuel Fu.
  - destruct fuel as [|fuel]; [unfold bonus in Fu; destruct (p_state p); lia|]. cbn [execute_loop]. replace (i <? n) with true by lia. rewrite St. reflexivity.
  - apply turn_measure in T as M. destruct fuel as [|fuel]; [unfold bonus in *; destruct (p_state p), (p_state p'); lia|].
    cbn [execute_loop]. replace (i <? n) with true by lia. rewrite T. cbn [bind]. apply IH; auto. lia.
Qed.

(** ** The pieces of a part *)
Definition view (p : parser) := (p_state p, p_hdrs p, p_key p, p_cert p, p_payloads p, p_seen_headers p).
Definition at_ (a : bytes) (i : Z) : Prop := o + i = len a.
Lemma at_next : forall a c i, at_ a i -> at_ (a ++ [c]) (i + 1).
Proof. unfold at_. intros. rewrite len_app. change (len [c]) with 1. lia. Qed.
Lemma at_app : forall a d i, at_ a i -> at_ (a ++ d) (i + len d).
Proof. unfold at_. intros. rewrite len_app. lia. Qed.
Ltac here E A := unfold execute_turn; rewrite (rd_at m _ _ _ _ E A); cbn [bind].

Lemma run_boundary : forall b a z i p, m = a ++ b ++ z -> at_ a i -> p_state p = s_start_boundary -> p_index p + len b = len bnd -> i + len b <= n ->
  exists q, reach i p (i + len b) q /\ view q = view p /\ p_index q = len bnd.
Proof.
  induction b as [|c b IH]; intros a z i p E A St Ix L.
  - change (len (@nil Z)) with 0 in *. rewrite Z.add_0_r. exists p. split; [constructor|]. split; [reflexivity|lia].
  - rewrite len_cons in *. pose proof (len_nonneg _ b).
    destruct (IH (a ++ [c]) z (i + 1) (set_index (p_index p + 1) p)) as (q & R & V & X).
    + rewrite <- app_assoc. exact E.
    + now apply at_next.
    + exact St.
    + cbn [p_index set_index]. lia.
    + lia.
    + exists q. split; [|split; [exact V|exact X]]. eapply reach_step; [lia| |replace (i + (len b + 1)) with (i + 1 + len b) by lia; exact R].
      here E A. rewrite St. unfold at_start_boundary. replace (p_index p =? len bnd) with false by lia. replace (p_index p =? len bnd + 1) with false by lia. reflexivity.
Qed.
Lemma run_delimiter : forall a z i p, m = a ++ bnd ++ 13 :: 10 :: z -> at_ a i -> p_state p = s_start_boundary -> p_index p = 0 -> i + len bnd + 2 <= n ->
  exists q, reach i p (i + len bnd + 2) q /\ view q = (s_header_field_start, p_hdrs p, p_key p, p_cert p, p_payloads p, false) /\ p_index q = 0.
Proof.
  intros a z i p E A St Ix L. destruct (run_boundary bnd a _ i p E A St) as (q & R & V & X); [lia|lia|]. unfold view in V. injection V as V1 V2 V3 V4 V5 V6.
  exists (set_seen_headers false (set_state s_header_field_start (set_index 0 (set_index (len bnd + 1) q)))). split; [|split; [unfold view; cbn; congruence|reflexivity]].
  eapply reach_trans; [exact R|]. pose proof (len_nonneg _ bnd).
  assert (E1 : m = (a ++ bnd) ++ 13 :: 10 :: z) by (rewrite <- app_assoc; exact E). pose proof (at_app _ bnd _ A) as A1.
  apply (reach_trans _ _ (i + len bnd + 1) (set_index (len bnd + 1) q)); apply reach_one; try lia.
  - here E1 A1. rewrite V1, St. unfold at_start_boundary. rewrite X, Z.eqb_refl. reflexivity.
  - assert (E2 : m = ((a ++ bnd) ++ [13]) ++ 10 :: z) by (rewrite E1, <- !app_assoc; reflexivity). pose proof (at_next _ 13 _ A1) as A2.
    here E2 A2. cbn [p_state set_index]. rewrite V1, St. unfold at_start_boundary. cbn [p_index set_index]. replace (len bnd + 1 =? len bnd) with false by lia. rewrite Z.eqb_refl.
    change (10 =? LF) with true. cbv iota. do 2 f_equal. lia.
Qed.
Lemma run_name : forall s a z i p, m = a ++ s ++ z -> at_ a i -> p_state p = s_header_field -> Forall (fun c => letter c \/ c = 45) s -> i - p_mark p + len s <= 64 -> i + len s < n ->
  reach i p (i + len s) p.
Proof.
  induction s as [|c s IH]; intros a z i p E A St F K L.
  - change (len (@nil Z)) with 0. rewrite Z.add_0_r. constructor.
  - rewrite len_cons in *. pose proof (len_nonneg _ s). inversion F as [|? ? Fc Fs]; subst.
    eapply reach_step; [lia| |replace (i + (len s + 1)) with (i + 1 + len s) by lia; apply (IH (a ++ [c]) z); [rewrite <- app_assoc; exact E|now apply at_next|exact St|exact Fs|lia|lia]].
    here E A. rewrite St. unfold at_header_field, isalpha, isupper, islower, is_last, letter, CR in *.
    replace (c =? 13) with false by lia. replace (c =? 58) with false by lia. replace (63 <? i - p_mark p) with false by lia. cbn [andb].
    replace (negb (c =? 45) && _) with false by lia. replace (i =? n - 1) with false by lia. reflexivity.
Qed.
Lemma run_value : forall s a z i p, m = a ++ s ++ z -> at_ a i -> p_state p = s_header_value -> ~ In 13 s -> i + len s < n ->
  exists q, reach i p (i + len s) q /\ view q = view p /\ p_mark q = p_mark p /\ p_name q = p_name p /\ p_index q = p_index p.
Proof.
  induction s as [|c s IH]; intros a z i p E A St F L.
  - change (len (@nil Z)) with 0. rewrite Z.add_0_r. exists p. repeat split; constructor.
  - rewrite len_cons in *. pose proof (len_nonneg _ s). cbn [In] in F.
    destruct (IH (a ++ [c]) z (i + 1) (set_seen_delim false p)) as (q & R & V); [rewrite <- app_assoc; exact E|now apply at_next|exact St|tauto|lia|].
    exists q. split; [|exact V]. eapply reach_step; [lia| |replace (i + (len s + 1)) with (i + 1 + len s) by lia; exact R].
    here E A. rewrite St. unfold at_header_value, is_last, CR. replace (c =? 13) with false by lia. replace (i =? n - 1) with false by lia. reflexivity.
Qed.

(** A header line.  [hs']: what the value callback makes of it. *)
Lemma run_header : forall name value a z i p hs', m = a ++ name ++ 58 :: 32 :: value ++ 13 :: 10 :: z -> at_ a i -> p_state p = s_header_field_start ->
  1 <= len name <= 64 -> Forall (fun c => letter c \/ c = 45) name -> ~ In 13 value -> hd 0 value <> 32 -> hd 45 z <> 45 ->
  i + len name + len value + 4 < n -> len (p_hdrs p) < 16 ->
  (forall q, p_name q = name -> p_hdrs q = p_hdrs p -> read_header_value junk value q = Ok (set_hdrs hs' q)) ->
  exists q, reach i p (i + len name + len value + 4) q /\ view q = (s_header_field_start, hs', p_key p, p_cert p, p_payloads p, true) /\ p_index q = p_index p.
Proof.
  intros name value a z i p hs' E A St Ln Fn Fv Hv Hz L Lh Rv. pose proof (len_nonneg _ value).
  destruct name as [|c name]; [cbn in Ln; lia|]. inversion Fn as [|? ? Fc Fn']; subst. rewrite len_cons in *.
  set (p1 := set_state s_header_field (set_mark i p)).
  (* the first letter is read like the others *)
  assert (R1 : reach i p (i + len (c :: name)) p1).
  { rewrite len_cons. pose proof (len_nonneg _ name). eapply reach_step; [lia| |replace (i + (len name + 1)) with (i + 1 + len name) by lia;
      apply (run_name name (a ++ [c]) (58 :: 32 :: value ++ 13 :: 10 :: z) (i + 1) p1)].
    - here E A. rewrite St. fold p1. unfold at_header_field, isalpha, isupper, islower, is_last, letter, CR in *. change (p_mark p1) with i.
      replace (c =? 13) with false by lia. replace (c =? 58) with false by lia. replace (63 <? i - i) with false by lia. cbn [andb].
      replace (negb (c =? 45) && _) with false by lia. replace (i =? n - 1) with false by lia. reflexivity.
    - rewrite E, <- app_assoc. reflexivity.
    - now apply at_next.
    - reflexivity.
    - exact Fn'.
    - change (p_mark p1) with i. lia.
    - lia. }
  set (nm := c :: name) in *.
  assert (Lnm : len nm = len name + 1) by apply len_cons.
  (* the colon *)
  set (i1 := i + len nm). assert (E1 : m = (a ++ nm) ++ 58 :: 32 :: value ++ 13 :: 10 :: z) by (rewrite E, <- app_assoc; reflexivity).
  pose proof (at_app _ nm _ A) as A1. fold i1 in A1.
  set (p2 := set_state s_header_value_start (set_name nm (set_seen_delim true (set_seen_headers true p1)))).
  assert (R2 : reach i1 p1 (i1 + 1) p2).
  { apply reach_one; [lia|]. here E1 A1. change (p_state p1) with s_header_field. cbv iota. unfold at_header_field. change (58 =? CR) with false. change (58 =? 58) with true. cbv iota.
    rewrite (sub_mid' m a nm (58 :: 32 :: value ++ 13 :: 10 :: z)); [|exact E|change (p_mark p1) with i; exact A|change (p_mark p1) with i; lia].
    cbn [bind]. unfold read_header_name. change (p_hdrs (set_seen_delim true (set_seen_headers true p1))) with (p_hdrs p). unfold MAX_PART_HEADERS. replace (len (p_hdrs p) <? 16) with true by lia.
    reflexivity. }
  (* the space *)
  assert (E2 : m = ((a ++ nm) ++ [58]) ++ 32 :: value ++ 13 :: 10 :: z) by (rewrite E1, <- !app_assoc; reflexivity).
  pose proof (at_next _ 58 _ A1) as A2.
  assert (R3 : reach (i1 + 1) p2 (i1 + 2) p2).
  { apply reach_one; [lia|]. here E2 A2. change (p_state p2) with s_header_value_start. change (32 =? SP) with true. cbv iota. do 2 f_equal. lia. }
  assert (E3 : m = (((a ++ nm) ++ [58]) ++ [32]) ++ value ++ 13 :: 10 :: z) by (rewrite E2, <- !app_assoc; reflexivity).
  pose proof (at_next _ 32 _ A2) as A3. replace (i1 + 1 + 1) with (i1 + 2) in A3 by lia.
  set (a3 := ((a ++ nm) ++ [58]) ++ [32]) in *.
  (* the value, up to its CR *)
  set (p3 := set_state s_header_value (set_mark (i1 + 2) p2)).
  set (i2 := i1 + 2 + len value).
  assert (E4 : m = (a3 ++ value) ++ 13 :: 10 :: z) by (rewrite E3, <- !app_assoc; reflexivity).
  pose proof (at_app _ value _ A3) as A4. fold i2 in A4.
  assert (Fin : forall q, p_mark q = i1 + 2 -> p_name q = nm -> p_hdrs q = p_hdrs p -> at_header_value junk m o n i2 13 q = Ok (Next (i2 + 1) (set_state s_header_value_almost_done (set_hdrs hs' (set_seen_delim false q))))).
  { intros q Mq Nq Hq. unfold at_header_value. change (13 =? CR) with true. cbv iota. cbn [p_mark set_seen_delim].
    rewrite (sub_mid' m a3 value (13 :: 10 :: z)); [|exact E3|rewrite Mq; exact A3|rewrite Mq; unfold i2; lia].
    cbn [bind]. rewrite Rv by assumption. reflexivity. }
  assert (R4 : exists q, reach (i1 + 2) p2 (i2 + 1) q /\ p_state q = s_header_value_almost_done /\ p_hdrs q = hs' /\ p_key q = p_key p /\ p_cert q = p_cert p /\ p_payloads q = p_payloads p /\ p_seen_headers q = true /\ p_index q = p_index p).
  { destruct value as [|v value].
    - unfold i2 in *. change (len (@nil Z)) with 0 in *. rewrite Z.add_0_r in *. rewrite app_nil_r in *. eexists. split; [apply reach_one; [lia|]|].
      + here E4 A4. change (p_state p2) with s_header_value_start. change (13 =? SP) with false. cbv iota. fold p3. apply Fin; reflexivity.
      + repeat split.
    - cbn [hd In] in Hv, Fv. rewrite len_cons in *. pose proof (len_nonneg _ value).
      destruct (run_value value (a3 ++ [v]) (13 :: 10 :: z) (i1 + 2 + 1) (set_seen_delim false p3)) as (q & R & V & Mq & Nq & Xq).
      { rewrite <- app_assoc. exact E3. } { now apply at_next. } { reflexivity. } { tauto. } { unfold i1. lia. }
      unfold view in V. injection V as V1 V2 V3 V4 V5 V6.
      exists (set_state s_header_value_almost_done (set_hdrs hs' (set_seen_delim false q))). split.
      + eapply reach_step; [lia| |eapply reach_trans; [exact R|]].
        * here E3 A3. change (p_state p2) with s_header_value_start. unfold SP. replace (v =? 32) with false by lia. fold p3.
          unfold at_header_value, is_last, CR. replace (v =? 13) with false by lia. replace (i1 + 2 =? n - 1) with false by (unfold i1; lia). reflexivity.
        * replace (i1 + 2 + 1 + len value) with i2 by (unfold i2; rewrite ?len_cons; lia). apply reach_one; [unfold i2, i1; rewrite ?len_cons; lia|].
          here E4 A4. rewrite V1. change (p_state (set_seen_delim false p3)) with s_header_value. cbv iota. apply Fin; assumption.
      + repeat split; assumption. }
  destruct R4 as (q & R4 & Q1 & Q2 & Q3 & Q4 & Q5 & Q6 & Q7).
  (* the LF *)
  exists (set_state s_header_field_start q). split; [|split; [unfold view; cbn; congruence|exact Q7]].
  eapply reach_trans; [exact R1|]. fold i1. eapply reach_trans; [exact R2|]. eapply reach_trans; [exact R3|]. eapply reach_trans; [exact R4|].
  assert (E5 : m = ((a3 ++ value) ++ [13]) ++ 10 :: z) by (rewrite E4, <- !app_assoc; reflexivity).
  pose proof (at_next _ 13 _ A4) as A5. apply reach_one; [unfold i2, i1; lia|].
  here E5 A5. rewrite Q1. change (10 =? LF) with true. cbv iota. destruct z as [|z0 z]; [cbn in Hz; lia|]. cbn [hd] in Hz.
  rewrite (rd_at m (((a3 ++ value) ++ [13]) ++ [10]) z0 z); [|rewrite E5, <- !app_assoc; reflexivity|pose proof (at_next _ 10 _ A5) as A6; unfold at_ in A6; lia].
  cbn [bind]. replace (z0 =? 45) with false by lia. do 2 f_equal. unfold i2, i1. lia.
Qed.

Definition keep (h : bytes * bytes) : bool := prefixb (str "Content-Type") (fst h) || prefixb (str "Content-Transfer-Encoding") (fst h).
Lemma value_starts : forall lit v, starts lit v -> value_is junk v lit = Ok true.
Proof.
  intros lit v (t & ->). unfold value_is. generalize (junk (lit ++ t)) as g. intro g. induction lit as [|c lit IH]; [reflexivity|]. cbn [app value_cmp]. rewrite Z.eqb_refl. exact IH.
Qed.
Lemma pkcs7_not_8 : forall v, starts cert_type v -> value_is junk v PKCS8 = Ok false.
Proof. intros v (t & ->). reflexivity. Qed.
Lemma prefixb_starts : forall a b, prefixb a b = true <-> starts a b.
Proof. intros. rewrite prefixb_spec. reflexivity. Qed.
Lemma callback_value : forall ct h q, ct = key_type \/ ct = cert_type ->
  (starts (str "Content-Type") (fst h) -> starts ct (snd h)) -> (starts (str "Content-Transfer-Encoding") (fst h) -> starts (str "base64") (snd h)) ->
  p_name q = fst h -> len (p_hdrs q) < 16 ->
  read_header_value junk (snd h) q = Ok (set_hdrs (p_hdrs q ++ (if keep h then [h] else [])) q).
Proof.
  intros ct [nm v] q Ct H1 H2 Nq L. cbn [fst snd] in *. unfold read_header_value, keep. rewrite Nq. cbn [fst].
  assert (Done : (if len (p_hdrs q) <? MAX_PART_HEADERS then Ok (set_hdrs (p_hdrs q ++ [(nm, v)]) q) else UB) = Ok (set_hdrs (p_hdrs q ++ [(nm, v)]) q)).
  { unfold MAX_PART_HEADERS. now replace (len (p_hdrs q) <? 16) with true by lia. }
  destruct (prefixb (str "Content-Type") nm) eqn:P1.
  - apply prefixb_starts in P1. specialize (H1 P1). cbn [orb]. destruct Ct as [-> | ->].
    + rewrite (value_starts PKCS8 v H1). cbn [bind]. exact Done.
    + rewrite (pkcs7_not_8 _ H1). cbn [bind]. rewrite (value_starts PKCS7_CERTS v H1). cbn [bind]. exact Done.
  - destruct (prefixb (str "Content-Transfer-Encoding") nm) eqn:P2.
    + apply prefixb_starts in P2. specialize (H2 P2). cbn [orb]. rewrite (value_starts _ v H2). cbn [bind]. exact Done.
    + cbn [orb bind]. rewrite app_nil_r. destruct q; reflexivity.
Qed.
Definition fits (ct : bytes) (h : bytes * bytes) : Prop :=
  part_header h /\ (starts (str "Content-Type") (fst h) -> starts ct (snd h)) /\ (starts (str "Content-Transfer-Encoding") (fst h) -> starts (str "base64") (snd h)).
Lemma run_headers : forall ct, ct = key_type \/ ct = cert_type -> forall hs a z i p, m = a ++ concat (map render_header hs) ++ z -> at_ a i -> p_state p = s_header_field_start ->
  Forall (fits ct) hs -> hd 45 z <> 45 -> i + len (concat (map render_header hs)) < n -> len (p_hdrs p) + len hs <= 16 ->
  exists q, reach i p (i + len (concat (map render_header hs))) q
    /\ view q = (s_header_field_start, p_hdrs p ++ filter keep hs, p_key p, p_cert p, p_payloads p, match hs with [] => p_seen_headers p | _ => true end)
    /\ p_index q = p_index p.
Proof.
  intros ct Ct. induction hs as [|h hs IH]; intros a z i p E A St F Hz L K.
  - change (len (concat (map render_header []))) with 0. rewrite Z.add_0_r. exists p. split; [constructor|]. split; [|reflexivity]. unfold view. cbn [filter]. rewrite app_nil_r, St. reflexivity.
  - inversion F as [|? ? Fh Fs]; subst. destruct Fh as ((N1 & N2 & N3 & V1 & V2 & V3) & Fh1 & Fh2). cbn [map concat] in *. rewrite len_app in *. rewrite len_cons in K.
    pose proof (len_nonneg _ (concat (map render_header hs))). pose proof (len_nonneg _ hs).
    assert (Lr : len (render_header h) = len (fst h) + len (snd h) + 4) by (unfold render_header; rewrite !len_app; change (len (str ": ")) with 2; change (len CRLF) with 2; lia).
    assert (Er : forall s, render_header h ++ s = fst h ++ 58 :: 32 :: snd h ++ 13 :: 10 :: s) by (intro s; unfold render_header; rewrite <- !app_assoc; reflexivity).
    destruct (run_header (fst h) (snd h) a (concat (map render_header hs) ++ z) i p (p_hdrs p ++ (if keep h then [h] else []))) as (q & R & V & X).
    + rewrite E, <- app_assoc, Er. reflexivity.
    + exact A.
    + exact St.
    + exact N1.
    + exact N3.
    + exact V1.
    + exact V3.
    + destruct hs as [|h' hs]; [exact Hz|]. inversion Fs as [|? ? Fh' _]; subst. destruct Fh' as ((N1' & N2' & _) & _). destruct h' as [[|x nm] v]; [cbn in N1'; lia|].
      cbn in N2' |- *. unfold letter in N2'. lia.
    + lia.
    + lia.
    + intros q Nq Hq. rewrite <- Hq. apply (callback_value ct); auto. rewrite Hq. lia.
    + unfold view in V. injection V as V1' V2' V3' V4' V5' V6'.
      destruct (IH (a ++ render_header h) z (i + len (render_header h)) q) as (q' & R' & V' & X').
      * rewrite E, <- !app_assoc. reflexivity.
      * now apply at_app.
      * exact V1'.
      * exact Fs.
      * exact Hz.
      * lia.
      * rewrite V2', len_app. destruct (keep h); [change (len [h]) with 1|change (len (@nil (bytes * bytes))) with 0]; lia.
      * exists q'. split; [|split; [|congruence]].
        -- eapply reach_trans; [exact R|]. replace (i + len (fst h) + len (snd h) + 4) with (i + len (render_header h)) by lia. rewrite Z.add_assoc. exact R'.
        -- rewrite V', V2', V3', V4', V5', V6'. cbn [filter]. rewrite <- app_assoc. destruct (keep h), hs; reflexivity.
Qed.
Lemma run_blank : forall a z i p, m = a ++ 13 :: 10 :: z -> at_ a i -> p_state p = s_header_field_start -> p_seen_headers p = true -> i + 2 <= n ->
  exists q, reach i p (i + 2) q /\ view q = (s_part_data_start, p_hdrs p, p_key p, p_cert p, p_payloads p, true) /\ p_index q = p_index p.
Proof.
  intros a z i p E A St Sh L. set (p1 := set_state s_headers_almost_done (set_state s_header_field (set_mark i p))).
  exists (set_state s_part_data_start p1). split; [|split; [unfold view; cbn; congruence|reflexivity]].
  apply (reach_trans _ _ (i + 1) p1); apply reach_one; try lia.
  - here E A. rewrite St. reflexivity.
  - assert (E1 : m = (a ++ [13]) ++ 10 :: z) by (rewrite E, <- app_assoc; reflexivity). pose proof (at_next _ 13 _ A) as A1. here E1 A1.
    change (p_state p1) with s_headers_almost_done. change (10 =? LF) with true. change (p_seen_headers p1) with (p_seen_headers p). rewrite Sh. cbv iota. do 2 f_equal. lia.
Qed.
(** Inside the content: no delimiter in sight. *)
Lemma data_step : forall c s a z i p, m = a ++ c :: s ++ 13 :: 10 :: 45 :: z -> at_ a i -> ~ In 45 s -> i < n - 1 ->
  at_part_data junk m o n i c p = Ok (Next (i + 1) p).
Proof.
  intros c s a z i p E A F L. unfold at_part_data, is_last, CR. assert (N : forall x, In x s -> (x =? 45) = false) by (intros x I; apply Z.eqb_neq; intros ->; auto).
  replace (i =? n - 1) with false by lia. destruct (c =? 13); [|reflexivity].
  assert (X : exists x y t, s ++ 13 :: 10 :: 45 :: z = x :: y :: t /\ (x =? 45) = false /\ (y =? 45) = false).
  { destruct s as [|x [|y s]]; cbn [app].
    - eexists _, _, _. split; [reflexivity|]. split; reflexivity.
    - eexists _, _, _. split; [reflexivity|]. split; [apply N; cbn; auto|reflexivity].
    - eexists _, _, _. split; [reflexivity|]. split; apply N; cbn; auto. }
  destruct X as (x & y & t & X & X1 & X2). rewrite X in E. unfold at_ in A.
  rewrite (rd_at m (a ++ [c]) x (y :: t)); [|rewrite E, <- app_assoc; reflexivity|rewrite len_app; change (len [c]) with 1; lia]. cbn [bind]. rewrite X1.
  rewrite (rd_at m (a ++ [c; x]) y t); [|rewrite E, <- app_assoc; reflexivity|rewrite len_app; change (len [c; x]) with 2; lia]. cbn [bind]. rewrite X2. reflexivity.
Qed.
Lemma run_data : forall s a z i p, m = a ++ s ++ 13 :: 10 :: 45 :: z -> at_ a i -> p_state p = s_part_data -> ~ In 45 s -> i + len s < n -> reach i p (i + len s) p.
Proof.
  induction s as [|c s IH]; intros a z i p E A St F L.
  - change (len (@nil Z)) with 0. rewrite Z.add_0_r. constructor.
  - rewrite len_cons in *. pose proof (len_nonneg _ s). cbn [In] in F.
    eapply reach_step; [lia| |replace (i + (len s + 1)) with (i + 1 + len s) by lia; apply (IH (a ++ [c]) z); [rewrite <- app_assoc; exact E|now apply at_next|exact St|tauto|lia]].
    here E A. rewrite St. eapply data_step; [exact E|exact A|tauto|lia].
Qed.
Definition after_part (j : Z) (q : parser) : turn :=
  Next (j + 1) (set_look (set_nth 0 (p_look q) CR) (set_state s_part_data_almost_boundary (set_mark j q))).
Lemma run_content : forall d a z i p, m = a ++ d ++ 13 :: 10 :: 45 :: z -> at_ a i -> p_state p = s_part_data_start -> d <> [] -> ~ In 45 d -> i + len d < n ->
  exists q, reach i p (i + len d) q /\ view q = (s_part_data, p_hdrs p, p_key p, p_cert p, p_payloads p, p_seen_headers p) /\ p_index q = p_index p
    /\ turn' (i + len d) q = emit_part junk d (i + len d) (set_payloads (p_payloads p + 1) q) (after_part (i + len d)).
Proof.
  intros d a z i p E A St Nd F L. set (p1 := set_state s_part_data (set_mark i p)). exists p1. split; [|split; [reflexivity|split; [reflexivity|]]].
  - destruct d as [|c d]; [contradiction|]. rewrite len_cons in *. pose proof (len_nonneg _ d). cbn [In] in F.
    eapply reach_step; [lia| |replace (i + (len d + 1)) with (i + 1 + len d) by lia; apply (run_data d (a ++ [c]) z (i + 1) p1); [rewrite <- app_assoc; exact E|now apply at_next|reflexivity|tauto|lia]].
    here E A. rewrite St. fold p1. eapply data_step; [exact E|exact A|tauto|lia].
  - assert (E1 : m = (a ++ d) ++ 13 :: 10 :: 45 :: z) by (rewrite E, <- app_assoc; reflexivity). pose proof (at_app _ d _ A) as A1.
    here E1 A1. change (p_state p1) with s_part_data. cbv iota. unfold at_part_data. change (13 =? CR) with true. cbv iota. unfold at_ in A1.
    rewrite (rd_at m ((a ++ d) ++ [13]) 10 (45 :: z)); [|rewrite E1, <- !app_assoc; reflexivity|rewrite (len_app _ (a ++ d)); change (len [13]) with 1; lia]. cbn [bind]. change (10 =? 45) with false. cbv iota.
    rewrite (rd_at m ((a ++ d) ++ [13; 10]) 45 z); [|rewrite E1, <- !app_assoc; reflexivity|rewrite (len_app _ (a ++ d)); change (len [13; 10]) with 2; lia]. cbn [bind]. change (45 =? 45) with true. cbv iota.
    rewrite (sub_mid' m a d (13 :: 10 :: 45 :: z)); [|exact E|exact A|change (p_mark p1) with i; lia]. reflexivity.
Qed.
(** A whole part, from its boundary string to the CR behind its content. *)
Lemma run_part : forall ct hs d a z i p, ct = key_type \/ ct = cert_type -> m = a ++ bnd ++ CRLF ++ concat (map render_header hs) ++ CRLF ++ d ++ 13 :: 10 :: 45 :: z -> at_ a i ->
  p_state p = s_start_boundary -> p_index p = 0 -> p_hdrs p = [] -> part_headers ct hs -> d <> [] -> ~ In 45 d ->
  i + len (bnd ++ CRLF ++ concat (map render_header hs) ++ CRLF ++ d) < n ->
  let j := i + len (bnd ++ CRLF ++ concat (map render_header hs) ++ CRLF ++ d) in
  exists q, reach i p j q /\ p_state q = s_part_data /\ p_hdrs q = filter keep hs /\ p_key q = p_key p /\ p_cert q = p_cert p /\ p_payloads q = p_payloads p
    /\ turn' j q = emit_part junk d j (set_payloads (p_payloads p + 1) q) (after_part j).
Proof.
  intros ct hs d a z i p Ct E A St Ix Hh (Lh & Fh & X1 & X2 & F1 & F2) Nd Fd L j. subst j. set (H := concat (map render_header hs)) in *.
  rewrite !len_app in *. change (len CRLF) with 2 in *. pose proof (len_nonneg _ d). pose proof (len_nonneg _ H). pose proof (len_nonneg _ bnd).
  assert (Ff : Forall (fits ct) hs).
  { rewrite Forall_forall in *. intros h I. split; [|split]; auto. }
  destruct (run_delimiter a (H ++ CRLF ++ d ++ 13 :: 10 :: 45 :: z) i p) as (p1 & R1 & V1 & I1); [exact E|exact A|exact St|exact Ix|lia|].
  unfold view in V1. injection V1 as V11 V12 V13 V14 V15 V16.
  set (a1 := a ++ bnd ++ CRLF). assert (A1 : at_ a1 (i + len bnd + 2)) by (unfold a1, at_ in *; rewrite !len_app; change (len CRLF) with 2; lia).
  destruct (run_headers ct Ct hs a1 (CRLF ++ d ++ 13 :: 10 :: 45 :: z) (i + len bnd + 2) p1) as (p2 & R2 & V2 & I2);
    [unfold a1; rewrite E, <- !app_assoc; reflexivity|exact A1|exact V11|exact Ff|cbn; lia|fold H; lia|rewrite V12, Hh; change (len (@nil (bytes * bytes))) with 0; lia|].
  fold H in R2. unfold view in V2. injection V2 as V21 V22 V23 V24 V25 V26. rewrite V12, Hh in V22. cbn [app] in V22.
  assert (Sh : p_seen_headers p2 = true) by (rewrite V26; destruct hs; [inversion X1|reflexivity]).
  set (a2 := a1 ++ H). pose proof (at_app _ H _ A1) as A2. fold a2 in A2.
  destruct (run_blank a2 (d ++ 13 :: 10 :: 45 :: z) (i + len bnd + 2 + len H) p2) as (p3 & R3 & V3 & I3); [unfold a2, a1; rewrite E, <- !app_assoc; reflexivity|exact A2|exact V21|exact Sh|lia|].
  unfold view in V3. injection V3 as V31 V32 V33 V34 V35 V36.
  set (a3 := a2 ++ CRLF). pose proof (at_app _ CRLF _ A2) as A3. change (len CRLF) with 2 in A3. fold a3 in A3.
  destruct (run_content d a3 z (i + len bnd + 2 + len H + 2) p3) as (p4 & R4 & V4 & I4 & T4); [unfold a3, a2, a1; rewrite E, <- !app_assoc; reflexivity|exact A3|exact V31|exact Nd|exact Fd|lia|].
  unfold view in V4. injection V4 as V41 V42 V43 V44 V45 V46.
  exists p4. replace (i + (len bnd + (2 + (len H + (2 + len d))))) with (i + len bnd + 2 + len H + 2 + len d) by lia.
  split; [eapply reach_trans; [exact R1|]; eapply reach_trans; [exact R2|]; eapply reach_trans; [exact R3|exact R4]|].
  repeat (split; [congruence|]). rewrite T4. f_equal. congruence.
Qed.
End Run.

(** ** The callback and the whole payload *)
Lemma first_named_in : forall nm l v, first_named nm l = Some v -> exists k, In (k, v) l /\ starts nm k.
Proof.
  induction l as [|[k v] l IH]; intros w H; [discriminate|]. cbn [first_named] in H. destruct (prefixb nm k) eqn:E.
  - injection H as ->. exists k. split; [now left|]. now apply prefixb_starts.
  - destruct (IH _ H) as (k' & I & St). exists k'. split; [now right|exact St].
Qed.
Lemma first_named_some : forall nm l k v, In (k, v) l -> starts nm k -> exists w, first_named nm l = Some w.
Proof.
  induction l as [|[k v] l IH]; intros k0 v0 I St; [destruct I|]. cbn [first_named]. destruct (prefixb nm k) eqn:E; [eauto|].
  destruct I as [I|I]; [injection I as -> ->; apply prefixb_starts in St; congruence|]. eapply IH; eauto.
Qed.
Lemma kept : forall ct hs, part_headers ct hs ->
  exists v w, first_named (str "Content-Type") (rev (filter keep hs)) = Some v /\ starts ct v
    /\ first_named (str "Content-Transfer-Encoding") (rev (filter keep hs)) = Some w /\ starts (str "base64") w.
Proof.
  intros ct hs (_ & _ & X1 & X2 & F1 & F2). rewrite Exists_exists in X1, X2. destruct X1 as ([k1 v1] & I1 & K1), X2 as ([k2 v2] & I2 & K2). cbn [fst] in K1, K2. subst.
  assert (S1 : starts (str "Content-Type") (str "Content-Type")) by (exists []; reflexivity).
  assert (S2 : starts (str "Content-Transfer-Encoding") (str "Content-Transfer-Encoding")) by (exists []; reflexivity).
  destruct (first_named_some (str "Content-Type") (rev (filter keep hs)) (str "Content-Type") v1) as (v & Ev); [apply -> in_rev; apply filter_In; split; [exact I1|reflexivity]|exact S1|].
  destruct (first_named_some (str "Content-Transfer-Encoding") (rev (filter keep hs)) (str "Content-Transfer-Encoding") v2) as (w & Ew); [apply -> in_rev; apply filter_In; split; [exact I2|reflexivity]|exact S2|].
  exists v, w. split; [exact Ev|]. rewrite Forall_forall in F1, F2.
  apply first_named_in in Ev as (k & I & Sk). apply in_rev, filter_In in I as [I _].
  apply first_named_in in Ew as E2. destruct E2 as (k' & I' & Sk'). apply in_rev, filter_In in I' as [I' _].
  split; [exact (F1 _ I Sk)|]. split; [exact Ew|exact (F2 _ I' Sk')].
Qed.
Lemma not_blank : forall d, part_text d -> only_whitespace d = false /\ d <> [] /\ 0 < len d.
Proof.
  intros d (_ & _ & X). rewrite Exists_exists in X. destruct X as (c & I & C). split; [|split].
  - apply not_true_is_false. intro F. unfold only_whitespace in F. rewrite forallb_forall in F. specialize (F c I). unfold memb, SP, CR, LF in F. cbn in F. lia.
  - intros ->. destruct I.
  - destruct d; [destruct I|]. rewrite len_cons. pose proof (len_nonneg _ d). lia.
Qed.
Lemma callback_key : forall junk d p hs, part_headers key_type hs -> p_hdrs p = filter keep hs -> part_text d -> len d <= 8192 ->
  part_data_cb junk d p = Ok (if both_populated (set_key d p) then (true, set_key d p) else (false, set_hdrs [] (set_key d p))).
Proof.
  intros junk d p hs Ph Eh T L. destruct (kept _ _ Ph) as (v & w & Ev & Sv & Ew & Sw). destruct (not_blank d T) as (B & _ & _).
  unfold part_data_cb, multipart_get_data_ct, multipart_get_data_cte. rewrite Eh, Ev, Ew. rewrite (value_starts junk _ _ Sw). cbn [bind negb]. unfold MULTIPART_PARSE_DATA_MAX.
  replace (8192 <? len d) with false by lia. rewrite (value_starts junk PKCS8 _ Sv). cbn [bind]. rewrite B. cbv zeta. now destruct (both_populated _).
Qed.
Lemma callback_cert : forall junk d p hs, part_headers cert_type hs -> p_hdrs p = filter keep hs -> part_text d -> len d <= 8192 ->
  part_data_cb junk d p = Ok (if both_populated (set_cert d p) then (true, set_cert d p) else (false, set_hdrs [] (set_cert d p))).
Proof.
  intros junk d p hs Ph Eh T L. destruct (kept _ _ Ph) as (v & w & Ev & Sv & Ew & Sw). destruct (not_blank d T) as (B & _ & _).
  unfold part_data_cb, multipart_get_data_ct, multipart_get_data_cte. rewrite Eh, Ev, Ew. rewrite (value_starts junk _ _ Sw). cbn [bind negb]. unfold MULTIPART_PARSE_DATA_MAX.
  replace (8192 <? len d) with false by lia. rewrite (pkcs7_not_8 junk _ Sv), (value_starts junk PKCS7_CERTS _ Sv). cbn [bind]. rewrite B. cbv zeta. now destruct (both_populated _).
Qed.

(** What the two parts store: key and certificate in either order. *)
Definition carry (hs1 : list (bytes * bytes)) (d1 : bytes) (hs2 : list (bytes * bytes)) (d2 key cert : bytes) : Prop :=
  (part_headers key_type hs1 /\ d1 = key /\ part_headers cert_type hs2 /\ d2 = cert)
  \/ (part_headers cert_type hs1 /\ d1 = cert /\ part_headers key_type hs2 /\ d2 = key).
Lemma loop_two : forall junk m o bnd n a hs1 d1 hs2 d2 key cert z,
  let P1 := bnd ++ CRLF ++ concat (map render_header hs1) ++ CRLF ++ d1 in
  let P2 := bnd ++ CRLF ++ concat (map render_header hs2) ++ CRLF ++ d2 in
  m = a ++ P1 ++ CRLF ++ str "--" ++ P2 ++ CRLF ++ 45 :: z -> o = len a -> 1 <= len bnd -> carry hs1 d1 hs2 d2 key cert ->
  part_text key -> len key <= 8192 -> part_text cert -> len cert <= 8192 -> len P1 + len P2 + 4 < n ->
  exists k p, execute_loop junk (S (2 * Z.to_nat n)) m o bnd n 0 multipart_parser_init = Ok (k, p) /\ p_key p = key /\ p_cert p = cert.
Proof.
  intros junk m o bnd n a hs1 d1 hs2 d2 key cert z P1 P2 E Eo Lb C Tk Lk Tc Lc Ln.
  set (p0 := set_state s_start_boundary (set_index 0 multipart_parser_init)).
  assert (T1 : part_text d1 /\ part_text d2) by (destruct C as [(_ & -> & _ & ->)|(_ & -> & _ & ->)]; auto). destruct T1 as [T1 T2].
  destruct (not_blank d1 T1) as (_ & N1 & _), (not_blank d2 T2) as (_ & N2 & _).
  assert (Ct : exists ct1 ct2, (ct1 = key_type \/ ct1 = cert_type) /\ (ct2 = key_type \/ ct2 = cert_type) /\ part_headers ct1 hs1 /\ part_headers ct2 hs2).
  { destruct C as [(H1 & _ & H2 & _)|(H1 & _ & H2 & _)]; [exists key_type, cert_type|exists cert_type, key_type]; auto. }
  destruct Ct as (ct1 & ct2 & Ct1 & Ct2 & H1 & H2).
  destruct (run_part junk m o bnd n ct1 hs1 d1 a (45 :: P2 ++ CRLF ++ 45 :: z) 0 p0) as (q1 & R1 & S1 & Hq1 & K1 & X1 & Y1 & U1); try assumption; try reflexivity.
  { rewrite E. unfold P1. rewrite <- !app_assoc. reflexivity. } { unfold at_. lia. } { apply T1. } { fold P1. pose proof (len_nonneg _ P2). lia. }
  fold P1 in R1, U1. rewrite Z.add_0_l in R1, U1. set (j := len P1) in *.
  (* the first part is stored *)
  set (q1' := set_payloads (p_payloads p0 + 1) q1) in *.
  assert (St : exists r, part_data_cb junk d1 q1' = Ok (false, r) /\ p_hdrs r = [] /\ p_state r = s_part_data /\ p_payloads r = 1
    /\ ((part_headers key_type hs1 /\ p_key r = d1 /\ p_cert r = []) \/ (part_headers cert_type hs1 /\ p_cert r = d1 /\ p_key r = []))).
  { change (p_key p0) with (@nil Z) in K1. change (p_cert p0) with (@nil Z) in X1.
    destruct C as [(G1 & -> & _)|(G1 & -> & _)].
    - rewrite (callback_key junk key q1' hs1 G1 Hq1 Tk Lk).
      replace (both_populated (set_key key q1')) with false by (unfold both_populated; change (p_cert (set_key key q1')) with (p_cert q1); rewrite X1; reflexivity).
      eexists. split; [reflexivity|]. split; [reflexivity|]. split; [exact S1|]. split; [reflexivity|]. left. split; [exact G1|]. split; [reflexivity|exact X1].
    - rewrite (callback_cert junk cert q1' hs1 G1 Hq1 Tc Lc).
      replace (both_populated (set_cert cert q1')) with false by (unfold both_populated; change (p_key (set_cert cert q1')) with (p_key q1); rewrite K1; rewrite andb_comm; reflexivity).
      eexists. split; [reflexivity|]. split; [reflexivity|]. split; [exact S1|]. split; [reflexivity|]. right. split; [exact G1|]. split; [reflexivity|exact K1]. }
  destruct St as (r & Cb & Hr & Sr & Pr & Kr).
  pose proof (len_nonneg _ P1). pose proof (len_nonneg _ P2). fold j in H.
  set (r1 := set_look (set_nth 0 (p_look r) CR) (set_state s_part_data_almost_boundary (set_mark j r))).
  assert (R2 : reach junk m o bnd n j q1 (j + 1) r1).
  { apply reach_one; [lia|]. rewrite U1. unfold emit_part. fold q1'. rewrite Cb. reflexivity. }
  (* the delimiter behind it *)
  set (r2 := set_index 0 (set_look (set_nth 1 (p_look r1) LF) (set_state s_start_boundary r1))).
  assert (R3 : reach junk m o bnd n (j + 1) r1 (j + 4) r2).
  { apply reach_one; [lia|]. unfold execute_turn. rewrite (rd_at m (a ++ P1 ++ [13]) 10 (str "--" ++ P2 ++ CRLF ++ 45 :: z)).
    - cbn [bind]. change (p_state r1) with s_part_data_almost_boundary. cbv iota. unfold at_almost_boundary. change (10 =? LF) with true. cbv iota. change (p_payloads r1) with (p_payloads r). rewrite Pr.
      change (1 =? 2) with false. cbv iota. fold r2. do 2 f_equal. lia.
    - rewrite E, <- !app_assoc. reflexivity.
    - rewrite !len_app. change (len [13]) with 1. fold j. lia. }
  (* the second part *)
  destruct (run_part junk m o bnd n ct2 hs2 d2 (a ++ P1 ++ CRLF ++ str "--") z (j + 4) r2) as (q2 & R4 & S2 & Hq2 & K2 & X2 & Y2 & U2); try assumption; try reflexivity.
  { rewrite E. unfold P2. rewrite <- !app_assoc. reflexivity. } { unfold at_. rewrite !len_app. fold j. change (len CRLF) with 2. change (len (str "--")) with 2. lia. }
  { apply T2. } { fold P2. lia. }
  fold P2 in R4, U2. set (j2 := j + 4 + len P2) in *. set (q2' := set_payloads (p_payloads r2 + 1) q2) in *.
  change (p_key r2) with (p_key r) in K2. change (p_cert r2) with (p_cert r) in X2.
  assert (Fin : exists f, part_data_cb junk d2 q2' = Ok (true, f) /\ p_key f = key /\ p_cert f = cert).
  { destruct C as [(G1 & D1 & G2 & D2)|(G1 & D1 & G2 & D2)]; subst.
    - rewrite (callback_cert junk cert q2' hs2 G2 Hq2 Tc Lc).
      assert (Kk : p_key q2 = key).
      { rewrite K2. destruct Kr as [(_ & -> & _)|(Gc & _)]; [reflexivity|]. destruct (kept _ _ G1) as (v & w & Ev & Sv & _), (kept _ _ Gc) as (v' & w' & Ev' & Sv' & _).
        rewrite Ev in Ev'. injection Ev' as <-. destruct Sv as (t & ->), Sv' as (t' & Sv'). discriminate Sv'. }
      replace (both_populated (set_cert cert q2')) with true.
      + eexists. split; [reflexivity|]. split; [exact Kk|reflexivity].
      + unfold both_populated. change (p_key (set_cert cert q2')) with (p_key q2). rewrite Kk. change (p_cert (set_cert cert q2')) with cert.
        destruct (not_blank _ Tk) as (_ & _ & ?), (not_blank _ Tc) as (_ & _ & ?). lia.
    - rewrite (callback_key junk key q2' hs2 G2 Hq2 Tk Lk).
      assert (Kk : p_cert q2 = cert).
      { rewrite X2. destruct Kr as [(Gc & _)|(_ & -> & _)]; [|reflexivity]. destruct (kept _ _ G1) as (v & w & Ev & Sv & _), (kept _ _ Gc) as (v' & w' & Ev' & Sv' & _).
        rewrite Ev in Ev'. injection Ev' as <-. destruct Sv as (t & ->), Sv' as (t' & Sv'). discriminate Sv'. }
      replace (both_populated (set_key key q2')) with true.
      + eexists. split; [reflexivity|]. split; [reflexivity|exact Kk].
      + unfold both_populated. change (p_cert (set_key key q2')) with (p_cert q2). rewrite Kk. change (p_key (set_key key q2')) with key.
        destruct (not_blank _ Tk) as (_ & _ & ?), (not_blank _ Tc) as (_ & _ & ?). lia. }
  destruct Fin as (f & Cf & Kf & Xf). exists j2, f. split; [|auto].
  (* the first turn is one of s_start_boundary *)
  assert (First : execute_loop junk (S (2 * Z.to_nat n)) m o bnd n 0 multipart_parser_init = execute_loop junk (S (2 * Z.to_nat n)) m o bnd n 0 p0).
  { cbn [execute_loop]. replace (0 <? n) with true by lia. reflexivity. }
  rewrite First. eapply loop_reach.
  - eapply reach_trans; [exact R1|]. eapply reach_trans; [exact R2|]. eapply reach_trans; [exact R3|exact R4].
  - unfold j2. lia.
  - rewrite U2. unfold emit_part. fold q2'. rewrite Cf. reflexivity.
  - change (bonus p0) with 0. lia.
Qed.
Theorem payload_two : forall junk m bnd a hs1 d1 hs2 d2 key cert y q, 1 <= len bnd <= 69 -> hd 45 bnd <> 45 -> carry hs1 d1 hs2 d2 key cert ->
  part_text key -> len key <= 8192 -> part_text cert -> len cert <= 8192 ->
  m = a ++ (render_part bnd hs1 d1 ++ render_part bnd hs2 d2 ++ 45 :: y) ++ 0 :: q -> no_nul (render_part bnd hs1 d1 ++ render_part bnd hs2 d2 ++ 45 :: y) ->
  parse_remaining_multipart_payload junk m (len a) bnd = Ok (EST_ERR_NONE, key, cert).
Proof.
  intros junk m bnd a hs1 d1 hs2 d2 key cert y q Lb Hb C Tk Lk Tc Lc E Nn. unfold parse_remaining_multipart_payload, LOOKBEHIND. replace (70 <=? len bnd) with false by lia.
  set (w := render_part bnd hs1 d1 ++ render_part bnd hs2 d2 ++ 45 :: y) in *.
  assert (Ew : cstr_at m (len a) = Ok w) by (rewrite E; now apply cstr_at_app). rewrite Ew. cbn [bind].
  assert (Sp : est_strspn w [45] = 2).
  { unfold w, render_part, est_strspn. destruct bnd as [|c bnd]; [cbn in Lb; lia|]. cbn [hd] in Hb. cbn. replace (c =? 45) with false by lia. reflexivity. }
  rewrite Sp. set (P1 := bnd ++ CRLF ++ concat (map render_header hs1) ++ CRLF ++ d1). set (P2 := bnd ++ CRLF ++ concat (map render_header hs2) ++ CRLF ++ d2).
  assert (W : w = str "--" ++ P1 ++ CRLF ++ str "--" ++ P2 ++ CRLF ++ 45 :: y).
  { unfold w, render_part, P1, P2. rewrite <- !app_assoc. reflexivity. }
  destruct (loop_two junk m (len a + 2) bnd (len w) (a ++ str "--") hs1 d1 hs2 d2 key cert (y ++ 0 :: q)) as (k & p & X & Kp & Cp); try assumption.
  - rewrite E, W. fold P1 P2. rewrite <- !app_assoc. reflexivity.
  - rewrite len_app. reflexivity.
  - lia.
  - fold P1 P2. rewrite W, !len_app. change (len CRLF) with 2. change (len (str "--")) with 2. rewrite len_cons. pose proof (len_nonneg _ y). lia.
  - rewrite X. cbn [bind]. unfold both_populated. rewrite Kp, Cp. destruct (not_blank _ Tk) as (_ & _ & ?), (not_blank _ Tc) as (_ & _ & ?).
    replace (negb (len cert =? 0) && negb (len key =? 0)) with true by lia. reflexivity.
Qed.
