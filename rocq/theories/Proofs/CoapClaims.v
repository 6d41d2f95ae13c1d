(** CoAP: the claims. *)
From Coq Require Import String ZArith List Bool Lia ZifyBool ZifyNat Sorting.Sorted Sorting.Permutation.
From Verif Require Import Base Spec.Base64 Spec.Http Spec.Coap Spec.Cbor Spec.CoapHistory Model.CLib Model.EstErr Model.Codec Model.Coap
  Proofs.EstErr Proofs.Codec Proofs.ServerReply Proofs.CoapCbor Proofs.CoapTable Proofs.CoapRun Proofs.CoapServe Proofs.CoapBlocks Proofs.CoapSafe.
Import ListNotations.
Open Scope Z_scope.

(** ** An implementation of bsearch and qsort that meets the contract *)
Fixpoint linear_search (k : bytes) (l : list node) : option nat :=
  match l with
  | [] => None
  | n :: l' => if beq (q_key n) k then Some 0%nat else option_map S (linear_search k l')
  end.
Fixpoint lex_leb (a b : bytes) : bool :=
  match a, b with
  | [], _ => true
  | _, [] => false
  | x :: a', y :: b' => (x <? y) || (x =? y) && lex_leb a' b'
  end.
Fixpoint insert (n : node) (l : list node) : list node :=
  match l with
  | [] => [n]
  | x :: l' => if lex_leb (q_key n) (q_key x) then n :: l else x :: insert n l'
  end.
Definition insertion_sort (l : list node) : list node := fold_right insert [] l.

Lemma lex_leb_le : forall a b, lex_leb a b = true <-> lex_le a b.
Proof.
  induction a as [|x a IH]; intros [|y b]; cbn; try tauto; [split; [discriminate|tauto]|].
  rewrite orb_true_iff, andb_true_iff, IH, Z.ltb_lt, Z.eqb_eq. tauto.
Qed.
Lemma lex_total : forall a b, lex_leb a b = false -> lex_le b a.
Proof.
  induction a as [|x a IH]; intros [|y b] H; cbn in *; try discriminate; [exact I|].
  apply orb_false_iff in H as [H1 H2]. destruct (x =? y) eqn:E; [|left; lia]. right. split; [lia|]. apply IH. exact H2.
Qed.
Lemma lex_trans : forall a b c, lex_le a b -> lex_le b c -> lex_le a c.
Proof.
  induction a as [|x a IH]; intros [|y b] [|z c] H1 H2; cbn in *; try tauto.
  destruct H1 as [H1|[-> H1]], H2 as [H2|[-> H2]]; [left; lia|left; lia|left; lia|]. right. split; [reflexivity|]. now apply (IH b).
Qed.
Lemma insert_perm : forall n l, Permutation (insert n l) (n :: l).
Proof.
  intros n l. induction l as [|x l IH]; [reflexivity|]. cbn. destruct (lex_leb _ _); [reflexivity|].
  etransitivity; [constructor; exact IH|apply perm_swap].
Qed.
Lemma insert_sorted : forall n l, StronglySorted (fun x y => lex_le (q_key x) (q_key y)) l ->
  StronglySorted (fun x y => lex_le (q_key x) (q_key y)) (insert n l).
Proof.
  intros n l S. induction S as [|x l S IH F]; [repeat constructor|]. cbn. destruct (lex_leb (q_key n) (q_key x)) eqn:E.
  - apply lex_leb_le in E. constructor; [now constructor|]. constructor; [exact E|].
    rewrite Forall_forall in *. intros y Hy. apply (lex_trans _ (q_key x)); auto.
  - constructor; [exact IH|]. apply lex_total in E. rewrite Forall_forall in *. intros y Hy.
    apply (Permutation_in _ (insert_perm n l)) in Hy as [<-|Hy]; auto.
Qed.
Lemma beq_eq : forall u v, beq u v = true <-> u = v.
Proof.
  induction u as [|c u IH]; destruct v as [|d v]; cbn; split; intro H; try reflexivity; try discriminate.
  - apply andb_true_iff in H as [E H]. apply Z.eqb_eq in E. apply IH in H. now subst.
  - inversion H; subst. rewrite Z.eqb_refl. now apply IH.
Qed.
Lemma lib_ok : search_lib q_key linear_search insertion_sort.
Proof.
  constructor.
  - induction l as [|n l IH]; [reflexivity|]. cbn. etransitivity; [apply insert_perm|]. now constructor.
  - induction l as [|n l IH]; [constructor|]. cbn. now apply insert_sorted.
  - intros k. induction l as [|n l IH]; intros i H; [discriminate|]. cbn in H. destruct (beq (q_key n) k) eqn:E.
    + inversion H; subst. exists n. split; [reflexivity|]. now apply beq_eq.
    + destruct (linear_search k l) as [j|]; [|discriminate]. inversion H; subst. now apply IH.
  - intros k l _. induction l as [|n l IH]; intros H x Hx; [destruct Hx|]. cbn in H.
    destruct (beq (q_key n) k) eqn:E; [discriminate|]. destruct Hx as [->|Hx].
    + intro K. apply beq_eq in K. congruence.
    + apply IH; [|assumption]. now destruct (linear_search k l).
Qed.

(** ** Keys *)
Lemma decimal_inj : forall v a b, decimal v a -> decimal v b -> a = b.
Proof. intros v a b (_ & _ & A) (_ & _ & B). congruence. Qed.
Lemma print_int_inj : forall a b, 0 <= a -> 0 <= b -> print_int a = print_int b -> a = b.
Proof.
  intros a b Ha Hb E. apply (decimal_inj (print_int a)); [now apply print_int_decimal|]. rewrite E. now apply print_int_decimal.
Qed.
Lemma print_int_ne : forall a, 0 <= a -> print_int a <> [].
Proof. intros a H. destruct (print_int_decimal a H) as (N & _). exact N. Qed.
Lemma app_inv_len : forall (a b c d : bytes), length a = length b -> a ++ c = b ++ d -> a = b /\ c = d.
Proof. induction a as [|x a IH]; intros [|y b] c d L H; try discriminate; [auto|]. cbn in *. inversion H. destruct (IH b c d); [lia|assumption|]. subst. auto. Qed.

Lemma keys_distinct : forall p q, addressed p -> addressed q ->
  len (print_int (fst p)) = len (print_int (fst q)) -> search_key p = search_key q -> p = q.
Proof.
  intros [a [x|]] [b [y|]] [Ha Na] [Hb Nb] L H; cbn in *; try congruence.
  inversion H as [E]. apply app_inv_len in E as [E ->]; [|unfold len in L; lia]. apply print_int_inj in E; auto. now subst.
Qed.
Lemma keys_same_port : forall p q, addressed p -> addressed q -> fst p = fst q -> search_key p = search_key q -> p = q.
Proof. intros p q Hp Hq E. apply keys_distinct; auto. now rewrite E. Qed.
Lemma keys_same_ip : forall p q, addressed p -> addressed q -> snd p = snd q -> search_key p = search_key q -> p = q.
Proof.
  intros [a [x|]] [b [y|]] [Ha Na] [Hb Nb] E H; cbn in *; try congruence. inversion E; subst. inversion H as [E2].
  apply app_inv_tail in E2. apply print_int_inj in E2; auto. now subst.
Qed.

Definition key_of (p : peer) : bytes := match search_key p with Some k => k | None => [] end.
Lemma key_of_ok : forall p, addressed p -> search_key p = Some (key_of p) /\ key_of p <> [].
Proof.
  intros [a [x|]] [Ha Na]; cbn in *; [|congruence]. unfold key_of. cbn. split; [reflexivity|].
  intro E. apply app_eq_nil in E as [E _]. now apply print_int_ne in E.
Qed.
Lemma key_of_inj : forall p q, addressed p -> addressed q -> key_of p = key_of q -> search_key p = search_key q.
Proof. intros p q Hp Hq E. destruct (key_of_ok p Hp) as [-> _], (key_of_ok q Hq) as [-> _]. now rewrite E. Qed.

Lemma Forall2_len : forall (A B : Type) (R : A -> B -> Prop) l l', Forall2 R l l' -> length l = length l'.
Proof. intros A B R l l' F. induction F; cbn; congruence. Qed.

Section Claims.
Variable bio : bool -> bytes -> Z -> bytes.
Variable bsearch : bytes -> list node -> option nat.
Variable qsort : list node -> list node.
Hypothesis Lib : search_lib q_key bsearch qsort.
Notation run := (run bio bsearch qsort).
Notation init := (est_coap_init_req_array).

Lemma room_nat : forall N ps h, peers_fit N ps h -> 0 <= N /\ (length ps <= Z.to_nat N)%nat.
Proof. intros N ps h F. pose proof (pf_room _ _ _ F). unfold len in *. lia. Qed.

Theorem coap_isolated : forall N ps h p rs t, peers_fit N ps h -> In p ps ->
  run h (init N) = Ok (rs, t) ->
  exists t', run (filter (mine p) h) (init N) = Ok (answers_to (mine p) h rs, t').
Proof.
  intros N ps h p rs t F Hp R. destruct (room_nat _ _ _ F) as [HN L]. replace N with (Z.of_nat (Z.to_nat N)) in * by lia.
  eapply (isolated bio bsearch qsort Lib (Z.to_nat N) ps key_of); [| | | |exact Hp| |exact R].
  - intros q Hq. apply key_of_ok. now apply (pf_addr _ _ _ F).
  - intros a b Ha Hb E. apply (pf_keys _ _ _ F); auto. apply key_of_inj; auto; now apply (pf_addr _ _ _ F).
  - apply (pf_nodup _ _ _ F).
  - lia.
  - apply (pf_all _ _ _ F).
Qed.

(** Count: here there may be more peers than entries. *)
Lemma admitted_early : forall m, short_options (m_opts m) -> admitted m = match early m with None => true | Some _ => false end.
Proof.
  intros m S. unfold admitted, early. pose proof (content_ok _ S) as C.
  assert (P : is_pkcs10 (values 12 (m_opts m)) = true <-> values 12 (m_opts m) = [286]).
  { unfold is_pkcs10. destruct (values 12 (m_opts m)) as [|v [|w l]]; split; intro H; try discriminate H.
    - f_equal. lia.
    - inversion H. reflexivity. }
  assert (POST : is_pkcs10 (values 12 (m_opts m)) && m_ssl m && m_cert m =
    match
      match est_coap_check_option (m_opts m) COAP_OPTION_CONTENT_TYPE COAP_MEDIA_TYPE_PKCS10 with
      | EST_ERR_NONE => if negb (m_ssl m) then Some tt else if negb (m_cert m) then Some tt else None
      | _ => Some tt
      end with None => true | Some _ => false end).
  { destruct (est_coap_check_option (m_opts m) COAP_OPTION_CONTENT_TYPE COAP_MEDIA_TYPE_PKCS10) eqn:E;
      try (destruct (is_pkcs10 _) eqn:Q; [exfalso; destruct C as [_ C], P as [P _]; discriminate (C (P eq_refl))|reflexivity]).
    destruct C as [C _], P as [_ P]. rewrite (P (C eq_refl)). now destruct (m_ssl m), (m_cert m). }
  destruct (m_op m); cbn [is_get]; try (now destruct (m_ssl m)); rewrite POST;
    destruct (est_coap_check_option _ _ _); try reflexivity; now destruct (m_ssl m), (m_cert m).
Qed.
Lemma sessions_opens : forall max h act, (forall p m, In (Message p m) h -> short_options (m_opts m)) ->
  fold_left (session_step event peer peer_eqb opening closes max) h act = fold_left (session_step event peer peer_eqb opens closes max) h act.
Proof.
  intros max h. induction h as [|e h IH]; intros act H; [reflexivity|]. cbn [fold_left].
  rewrite IH by (intros p m I; apply (H p m); now right). f_equal. unfold session_step. destruct e as [p|p|p m]; try reflexivity.
  cbn [opening opens]. rewrite admitted_early by (apply (H p m); now left). now destruct (early m).
Qed.

Theorem coap_count : forall N ps h rs t, 0 <= N -> (forall p m, In (Message p m) h -> short_options (m_opts m)) ->
  (forall e, In e h -> In (peer_of e) ps) -> (forall p, In p ps -> addressed p) ->
  (forall p q, In p ps -> In q ps -> search_key p = search_key q -> p = q) ->
  run h (init N) = Ok (rs, t) ->
  let act := sessions event peer peer_eqb opens closes N h in
  t_cnt t = len act /\ len act <= N /\ NoDup act
  /\ forall e r a t', In (peer_of e) ps -> ~ In (peer_of e) act -> len act = N -> step bio bsearch qsort e t = Ok (r, a, t') ->
       t' = t /\ calls a = [] /\ (forall p m, e = Message p m -> exists r', r = Some r' /\ 400 <= r_code r' /\ r_body r' = None).
Proof.
  intros N ps h rs t HN SO He Ha Hk. assert (EN : N = Z.of_nat (Z.to_nat N)) by lia. revert HN. rewrite EN.
  generalize (Z.to_nat N). clear N EN. intros M HN R act.
  destruct (run_count bio bsearch qsort Lib M ps key_of) with (h := h) (t := est_coap_init_req_array (Z.of_nat M)) (dom := @nil bytes)
    (f := fun _ : bytes => zero_node) (act := @nil peer) (rs := rs) (t' := t) as (dom' & f' & H & P & I & ND).
  - intros q Hq. apply key_of_ok. now apply Ha.
  - intros a b A B E. apply Hk; auto. apply key_of_inj; auto.
  - apply init_holds.
  - reflexivity.
  - apply incl_nil_l.
  - constructor.
  - exact He.
  - exact R.
  - rewrite sessions_opens in P, I, ND by exact SO. fold (sessions event peer peer_eqb opens closes (Z.of_nat M) h) in P, I, ND. fold act in P, I, ND.
    assert (L : length dom' = length act) by (rewrite (Permutation_length P), map_length; reflexivity).
    split; [rewrite (h_cnt _ _ _ _ H); unfold len; lia|]. split; [pose proof (h_room _ _ _ _ H); unfold len; lia|].
    split; [exact ND|]. intros e r a t' Ie Ne Le S.
    destruct (key_of_ok (peer_of e) (Ha _ Ie)) as [K1 K2].
    assert (NI : ~ In (key_of (peer_of e)) dom').
    { intro X. apply (Permutation_in _ P) in X. apply in_map_iff in X as (q & E & Hq). apply Ne.
      assert (q = peer_of e); [|now subst]. apply Hk; auto. apply key_of_inj; auto. }
    rewrite (step_full bio bsearch qsort Lib M t dom' f' e _ H K1 K2 NI) in S by (unfold len in Le; lia).
    destruct e as [q|q|q m]; [inversion S; subst; repeat split; auto; discriminate|inversion S; subst; repeat split; auto; discriminate|].
    assert (EE : forall r0 a0, early m = Some (r0, a0) -> calls a0 = [] /\ 400 <= r_code r0 /\ r_body r0 = None).
    { unfold early. intros r0 a0. destruct (is_get (m_op m)).
      - destruct (negb (m_ssl m)); [|discriminate]. intro X. inversion X; subst. cbn. destruct (m_op m); repeat split; auto; lia.
      - destruct (est_coap_check_option _ _ _); try (intro X; inversion X; subst; cbn; repeat split; auto; lia).
        destruct (negb (m_ssl m)); [intro X; inversion X; subst; cbn; repeat split; auto; lia|].
        destruct (negb (m_cert m)); [intro X; inversion X; subst; cbn; repeat split; auto; lia|discriminate]. }
    destruct (early m) as [(r0, a0)|].
    + inversion S; subst. destruct (EE _ _ eq_refl) as (E1 & E2 & E3). repeat split; auto. intros. eauto.
    + inversion S; subst. repeat split; auto. intros. exists (code 500). cbn. repeat split; auto. lia.
Qed.

(** Upload in a history. *)
Theorem coap_upload : forall N ps h p op szx data h0 ms ks final rs t,
  peers_fit N ps h -> In p ps -> enrolls op -> 0 <= szx <= 6 -> 5 <= len data <= 16384 ->
  filter (mine p) h = h0 ++ map (Message p) (ms ++ [final]) ->
  (forall q m, In (Message q m) h0 -> plain m /\ m_op m <> OpReset) ->
  upload (last_block szx data) (-1) ks ->
  Forall2 (fun m k => posted op m /\ carries szx (fst k) data m) ms ks ->
  posted op final -> carries szx (last_block szx data) data final ->
  run h (init N) = Ok (rs, t) ->
  exists rs0 rs1 rf r, answers_to (mine p) h rs = rs0 ++ rs1 ++ [rf] /\ length rs0 = length h0
    /\ Forall2 (answered szx) ks rs1
    /\ calls (snd rf) = [(op, b64_wrap (b64_encode data))]
    /\ fst rf = Some r /\ exists n, completed bio final op data r n.
Proof.
  intros N ps h p op szx data h0 ms ks final rs t F Hp Hop Hs Hd Hh H0 U FF Pf Cf R.
  destruct (room_nat _ _ _ F) as [HN L].
  replace N with (Z.of_nat (Z.to_nat N)) in * by lia.
  destruct (run_cells bio bsearch qsort Lib (Z.to_nat N) ps key_of) with (h := h) (t := est_coap_init_req_array (Z.of_nat (Z.to_nat N)))
    (dom := @nil bytes) (f := fun _ : bytes => zero_node) (rs := rs) (t' := t) as (dom' & f' & _ & _ & C).
  - intros q Hq. apply key_of_ok. now apply (pf_addr _ _ _ F).
  - intros a b Ha Hb E. apply (pf_keys _ _ _ F); auto. apply key_of_inj; auto; now apply (pf_addr _ _ _ F).
  - lia.
  - apply init_holds.
  - apply incl_nil_l.
  - apply (pf_all _ _ _ F).
  - exact R.
  - specialize (C p Hp). rewrite Hh in C. apply cell_run_app in C as (rs0 & rs2 & c1 & R0 & R2 & E). rewrite E.
    assert (Fc : cell_fine c1).
    { apply (cell_run_fine bio (key_of p) h0 (view [] (fun _ => zero_node) (key_of p)) rs0 c1 H0); [exact I|exact R0]. }
    destruct (upload_run bio op szx data Hop Hs Hd p (key_of p) ks ms final c1 rs2 _ U FF Pf Cf Fc R2)
      as (rs1 & rf & -> & FA & CA & r & n & E1 & _ & K).
    exists rs0, rs1, rf, r. split; [reflexivity|]. split; [|eauto 6].
    clear - R0. revert rs0 R0. generalize (view [] (fun _ : bytes => zero_node) (key_of p)).
    induction h0 as [|e h0 IH]; intros c rs0 R0; cbn [cell_run] in R0; [inversion R0; reflexivity|].
    apply bind_ok in R0 as (((r, a), c2) & _ & R0). apply bind_ok in R0 as ((rs3, c3) & R3 & R0). inversion R0; subst.
    cbn. f_equal. eapply IH. exact R3.
Qed.

Lemma again_run : forall p key op n d c ms rs c', (forall m, In m ms -> early m = None /\ m_op m = op) ->
  (forall m, In m ms -> m_payload m = [] \/ (exists b, m_block1 m = Some b /\ b_num b <> 0) \/ is_get op = true) ->
  c = (if is_get op then 205 else 204) ->
  q_rlen n = len d -> firstn (Z.to_nat (len d)) (q_resp n) = d -> q_op n = op -> nth 0 d 0 <> 0 ->
  cell_run bio key (map (Message p) ms) (Some n) = Ok (rs, c') ->
  map fst rs = map (fun _ => Some {| r_code := c; r_body := Some (media_of op, d); r_block1 := None |}) ms
  /\ Forall (fun x => calls (snd x) = []) rs.
Proof.
  intros p key op n d c ms. induction ms as [|m ms IH]; intros rs c' He Hp Hc L D O N R.
  - cbn in R. inversion R; subst. split; [reflexivity|constructor].
  - cbn [map cell_run cell_step] in R. destruct (He m (or_introl eq_refl)) as [E Om]. rewrite E in R. cbn [opened] in R.
    assert (RF : refreshed n (m_op m) = n).
    { unfold refreshed. rewrite Om, O. assert (X : op_eqb op op = true) by (destruct op; reflexivity). now rewrite X. }
    assert (R0 : nth 0 (q_resp n) 0 <> 0).
    { rewrite <- D in N. destruct (Z.to_nat (len d)); [cbn in N; congruence|]. destruct (q_resp n); [cbn in N; congruence|]. exact N. }
    rewrite RF in R. rewrite (serve_stored bio m n R0) in R by (rewrite Om; apply (Hp m); now left).
    unfold answer in R. cbn [bind] in R. apply bind_ok in R as ((rs1, c1) & R1 & R). inversion R; subst rs c'. clear R.
    destruct (IH rs1 c1 (fun x Hx => He x (or_intror Hx)) (fun x Hx => Hp x (or_intror Hx)) Hc L D O N R1) as [E1 E2].
    cbn [map fst]. split.
    + f_equal; [|exact E1]. unfold stored_resp. rewrite L, D, Om. now subst c.
    + constructor; [|exact E2]. cbn. now destruct (m_more2 m).
Qed.

Theorem coap_again : forall N ps h p op szx data h0 ms ks final more rs t d,
  peers_fit N ps h -> In p ps -> enrolls op -> 0 <= szx <= 6 -> 5 <= len data <= 16384 ->
  filter (mine p) h = h0 ++ map (Message p) (ms ++ [final]) ++ map (Message p) more ->
  (forall q m, In (Message q m) h0 -> plain m /\ m_op m <> OpReset) ->
  upload (last_block szx data) (-1) ks ->
  Forall2 (fun m k => posted op m /\ carries szx (fst k) data m) ms ks ->
  posted op final -> carries szx (last_block szx data) data final ->
  let o := m_env final op (b64_wrap (b64_encode data)) in
  o_rc o = EST_ERR_NONE -> enroll_payload bio op o = Ok (Some d) -> len d <= 16384 -> nth 0 d 0 <> 0 ->
  (forall m, In m more -> posted op m /\ m_payload m = []) ->
  run h (init N) = Ok (rs, t) ->
  exists before rest, answers_to (mine p) h rs = before ++ rest /\ length before = (length h0 + length ms)%nat
    /\ map fst rest = map (fun _ => Some {| r_code := 204; r_body := Some (media_of op, d); r_block1 := None |}) (final :: more)
    /\ concat (map (fun x => calls (snd x)) rest) = [(op, b64_wrap (b64_encode data))].
Proof.
  intros N ps h p op szx data h0 ms ks final more rs t d F Hp Hop Hs Hd Hh H0 U FF Pf Cf o Eo Ed Ld Nd Hm R.
  destruct (room_nat _ _ _ F) as [HN L].
  replace N with (Z.of_nat (Z.to_nat N)) in * by lia.
  destruct (run_cells bio bsearch qsort Lib (Z.to_nat N) ps key_of) with (h := h) (t := est_coap_init_req_array (Z.of_nat (Z.to_nat N)))
    (dom := @nil bytes) (f := fun _ : bytes => zero_node) (rs := rs) (t' := t) as (dom' & f' & _ & _ & C).
  - intros q Hq. apply key_of_ok. now apply (pf_addr _ _ _ F).
  - intros a b Ha Hb E. apply (pf_keys _ _ _ F); auto. apply key_of_inj; auto; now apply (pf_addr _ _ _ F).
  - lia.
  - apply init_holds.
  - apply incl_nil_l.
  - apply (pf_all _ _ _ F).
  - exact R.
  - specialize (C p Hp). rewrite Hh in C. apply cell_run_app in C as (rs0 & rs2 & c1 & R0 & R2 & E). rewrite E.
    assert (Fc : cell_fine c1).
    { apply (cell_run_fine bio (key_of p) h0 (view [] (fun _ => zero_node) (key_of p)) rs0 c1 H0); [exact I|exact R0]. }
    apply cell_run_app in R2 as (rs3 & rs4 & c2 & R3 & R4 & ->).
    destruct (upload_run bio op szx data Hop Hs Hd p (key_of p) ks ms final c1 rs3 _ U FF Pf Cf Fc R3)
      as (rs1 & rf & -> & FA & CA & r & n & E1 & -> & K).
    destruct (k_done _ _ _ _ _ _ K d Eo Ed Ld) as (Er & Kl & Kd & Ko).
    assert (G : is_get op = false) by (destruct Hop as [->|[->| ->]]; reflexivity).
    destruct (again_run p (key_of p) op n d 204 more rs4 (view dom' f' (key_of p))) as [E2 E3]; auto.
    { intros m Im. destruct (Hm m Im) as [P _]. split; [now apply (posted_early op)|apply P]. }
    { intros m Im. left. apply (Hm m Im). }
    { now rewrite G. }
    exists (rs0 ++ rs1), (rf :: rs4). split; [rewrite <- !app_assoc; reflexivity|]. split; [|split].
    + rewrite app_length. f_equal.
      * clear - R0. revert rs0 R0. generalize (view [] (fun _ : bytes => zero_node) (key_of p)).
        induction h0 as [|e h0 IH]; intros c rs0 R0; cbn [cell_run] in R0; [inversion R0; reflexivity|].
        apply bind_ok in R0 as (((r, a), c2) & _ & R0). apply bind_ok in R0 as ((rs3, c3) & R3 & R0). inversion R0; subst.
        cbn. f_equal. eapply IH. exact R3.
      * rewrite <- (Forall2_len _ _ _ _ _ FA). symmetry. exact (Forall2_len _ _ _ _ _ FF).
    + cbn [map]. rewrite E1, E2, Er. reflexivity.
    + cbn [map concat]. rewrite CA. replace (concat (map (fun x => calls (snd x)) rs4)) with (@nil (coap_op * bytes)); [reflexivity|].
      clear - E3. induction E3 as [|x l Hx _ IH]; [reflexivity|]. cbn. now rewrite Hx, <- IH.
Qed.

(** A call is made only for an authenticated peer with acceptable options. *)
Theorem coap_call : forall p m t r a t' op text,
  step bio bsearch qsort (Message p m) t = Ok (r, a, t') -> In (op, text) (calls a) -> short_options (m_opts m) ->
  m_op m = op /\ m_ssl m = true
  /\ (values 17 (m_opts m) = [] \/ values 17 (m_opts m) = [media_of op])
  /\ (is_get op = false -> m_cert m = true /\ values 12 (m_opts m) = [286]).
Proof.
  intros p m t r a t' op text S I SO. cbn [step] in S. unfold serve_message in S. cbv zeta in S.
  set (go := match get_coap_req bsearch qsort t p (m_op m) with (None, t') => _ | (Some i, t') => _ end) in S.
  assert (G : go = Ok (r, a, t') -> m_op m = op /\ (values 17 (m_opts m) = [] \/ values 17 (m_opts m) = [media_of op])).
  { unfold go. destruct (get_coap_req bsearch qsort t p (m_op m)) as [[i|] t1].
    2: { intro H. inversion H; subst. destruct I. }
    intro H. apply bind_ok in H as (((r1, a1), n1) & S1 & H). inversion H; subst. clear H S go.
    assert (Ans : forall c n2 acts (x : reply) y z, answer c m n2 acts = Ok (x, y, z) -> calls y = calls acts).
    { intros c n2 acts x y z H. unfold answer in H. inversion H; subst. rewrite calls_app. destruct (m_more2 m); cbn; apply app_nil_r. }
    assert (Fl : forall c acts n2 (x : reply) y z, fail c acts n2 = Ok (x, y, z) -> calls y = calls acts).
    { intros c acts n2 x y z H. unfold fail in H. inversion H; subst. rewrite calls_app. cbn. apply app_nil_r. }
    unfold serve in S1. destruct (is_get (m_op m)) eqn:Gt.
    - unfold serve_get in S1. set (n := nth i (t_nodes t1) zero_node) in S1. destruct (negb _); [apply Ans in S1; rewrite S1 in I; destruct I|].
      destruct (est_coap_check_option (m_opts m) COAP_OPTION_ACCEPT (media_of (m_op m))) eqn:A.
      all: try (exfalso; apply Fl in S1; rewrite S1 in I; destruct (m_op m); now destruct I).
      apply accept_ok in A; [|exact SO].
      assert (Q : calls a = [(m_op m, [])]).
      { destruct (negb (err_eqb _ _)); [apply Fl in S1; exact S1|]. destruct (o_text _); [|apply Fl in S1; exact S1].
        apply bind_ok in S1 as ([d|] & _ & S1); [|apply Fl in S1; exact S1].
        apply bind_ok in S1 as ([k|] & _ & S1); [apply Ans in S1; exact S1|apply Fl in S1; exact S1]. }
      rewrite Q in I. destruct I as [I|[]]. inversion I; subst. auto.
    - unfold serve_enroll in S1. cbv zeta in S1. set (n := nth i (t_nodes t1) zero_node) in S1.
      match type of S1 with context [if ?c then reinit_coap_req n (m_op m) else n] =>
        set (n2 := if c then reinit_coap_req n (m_op m) else n) in S1 end. clearbody n2.
      destruct (negb _); [apply Ans in S1; rewrite S1 in I; destruct I|].
      assert (A0 : calls (if nth 0 (q_req n2) 0 =? 0 then [AStart] else []) = []) by now destruct (_ =? 0).
      set (a0 := if nth 0 (q_req n2) 0 =? 0 then [AStart] else []) in *. clearbody a0.
      destruct (est_coap_check_option (m_opts m) COAP_OPTION_ACCEPT (media_of (m_op m))) eqn:A.
      all: try (exfalso; apply Fl in S1; rewrite S1, A0 in I; now destruct I).
      apply accept_ok in A; [|exact SO].
      apply bind_ok in S1 as (tk & _ & S1). destruct tk as [c x|b x|x].
      { exfalso; apply Fl in S1; rewrite S1, A0 in I; now destruct I. }
      { exfalso. inversion S1; subst. rewrite A0 in I. destruct I. }
      destruct (q_len x <=? 0); [exfalso; apply Fl in S1; rewrite S1, A0 in I; now destruct I|].
      apply bind_ok in S1 as ((l, blk) & _ & S1).
      destruct (l <=? 0); [exfalso; apply Fl in S1; rewrite S1, A0 in I; now destruct I|].
      set (txt := firstn (Z.to_nat l) blk) in S1. set (csr := firstn _ (q_req x)) in S1.
      assert (Q : calls a = [(m_op m, txt)]).
      { assert (C1 : forall z, calls (a0 ++ [AEnrollReq csr; ACall (m_op m) txt; AEnrollRsp csr z]) = [(m_op m, txt)]).
        { intro z. rewrite calls_app, A0. reflexivity. }
        destruct (negb (err_eqb _ _)); [apply Fl in S1; now rewrite S1|].
        apply bind_ok in S1 as ([d|] & _ & S1); [|apply Fl in S1; now rewrite S1].
        apply bind_ok in S1 as ([k|] & _ & S1); [apply Ans in S1; now rewrite S1|apply Fl in S1; now rewrite S1]. }
      rewrite Q in I. destruct I as [I|[]]. inversion I; subst. auto. }
  clearbody go. destruct (is_get (m_op m)) eqn:Gt.
  - destruct (negb (m_ssl m)) eqn:SS; [exfalso; destruct (m_op m); inversion S; subst; destruct I|].
    destruct (G S) as [O Ac]. subst op. split; [reflexivity|]. split; [now destruct (m_ssl m)|]. split; [exact Ac|]. rewrite Gt. discriminate.
  - destruct (est_coap_check_option (m_opts m) COAP_OPTION_CONTENT_TYPE COAP_MEDIA_TYPE_PKCS10) eqn:CT;
      try (exfalso; inversion S; subst; destruct I).
    apply content_ok in CT; [|exact SO].
    destruct (negb (m_ssl m)) eqn:SS; [exfalso; inversion S; subst; destruct I|].
    destruct (negb (m_cert m)) eqn:SC; [exfalso; inversion S; subst; destruct I|].
    destruct (G S) as [O Ac]. subst op. split; [reflexivity|]. split; [now destruct (m_ssl m)|]. split; [exact Ac|].
    intros _. split; [now destruct (m_cert m)|exact CT].
Qed.
End Claims.
