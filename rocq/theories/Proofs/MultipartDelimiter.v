(** A first delimiter that is not a line of its own. *)
From Coq Require Import String ZArith List Bool Lia ZifyBool ZifyNat.
From Verif Require Import Base Spec.Http Spec.Server Spec.Client Spec.Multipart Model.CLib Model.EstErr Model.HttpServer Model.ClientHttp Model.Multipart
  Proofs.EstErr Proofs.HttpParse Proofs.HttpRender Proofs.ClientHeaders Proofs.ClientHttp Proofs.ClientRender Proofs.MultipartRun Proofs.MultipartHeaders Proofs.MultipartResponse.
Import ListNotations.
Open Scope Z_scope.

Lemma payload_bad : forall junk m bnd a x y po q, 1 <= len bnd <= 69 -> hd 45 bnd <> 45 -> x <> 45 -> ~ (x = 13 /\ y = 10) ->
  m = a ++ (str "--" ++ bnd ++ x :: y :: po) ++ 0 :: q -> no_nul (str "--" ++ bnd ++ x :: y :: po) ->
  parse_remaining_multipart_payload junk m (len a) bnd = Ok (EST_ERR_MULTIPART_PARSE, [], []).
Proof.
  intros junk m bnd a x y po q Lb Hb Nx Nxy E Nn. unfold parse_remaining_multipart_payload, LOOKBEHIND. replace (70 <=? len bnd) with false by lia.
  set (w := str "--" ++ bnd ++ x :: y :: po) in *.
  assert (Ew : cstr_at m (len a) = Ok w) by (rewrite E; now apply cstr_at_app). rewrite Ew. cbn [bind].
  assert (Sp : est_strspn w [45] = 2).
  { unfold w, est_strspn. destruct bnd as [|c bnd]; [cbn in Lb; lia|]. cbn [hd] in Hb. cbn. replace (c =? 45) with false by lia. reflexivity. }
  rewrite Sp. assert (Lw : len w = 4 + len bnd + len po). { unfold w. rewrite !len_app, !len_cons. change (len (str "--")) with 2. lia. }
  pose proof (len_nonneg _ po) as Lpo.
  set (p1 := set_state s_start_boundary (set_index 0 multipart_parser_init)).
  assert (Em : m = (a ++ str "--") ++ bnd ++ x :: y :: po ++ 0 :: q). { rewrite E. unfold w. rewrite <- !app_assoc. reflexivity. }
  assert (A0 : at_ (len a + 2) (a ++ str "--") 0) by (unfold at_; rewrite len_app; change (len (str "--")) with 2; lia).
  destruct (run_boundary junk m (len a + 2) bnd (len w) bnd (a ++ str "--") _ 0 p1 Em A0 eq_refl) as (s & R & V & X); [cbn [p1 p_index set_state set_index]; lia|lia|].
  assert (Ls : exists k p', k < len w /\ execute_loop junk (S (2 * Z.to_nat (len w))) m (len a + 2) bnd (len w) 0 multipart_parser_init = Ok (k, p') /\ p_key p' = [] /\ p_cert p' = []).
  { injection V as V1 V2 V3 V4 V5 V6. cbn [p1 p_state p_key p_cert set_state set_index multipart_parser_init] in V1, V3, V4.
    assert (T0 : exists i' p2, execute_turn junk m (len a + 2) bnd (len w) 0 multipart_parser_init = Ok (Next i' p2) /\ execute_turn junk m (len a + 2) bnd (len w) 0 p1 = Ok (Next i' p2)).
    { destruct bnd as [|c0 b0] eqn:Eb; [cbn in Lb; lia|]. rewrite <- Eb in *.
      assert (Rc : rd m (len a + 2 + 0) = Ok c0) by (apply (rd_at m (a ++ str "--") c0 (b0 ++ x :: y :: po ++ 0 :: q)); [rewrite Em, Eb; reflexivity|exact A0]).
      eexists _, _. split; unfold execute_turn; rewrite Rc; cbn [bind]; [|unfold p1]; cbn [p_state set_state set_index multipart_parser_init];
      unfold at_start_boundary; cbn [p_index set_state set_index]; replace (0 =? len bnd) with false by lia; replace (0 =? len bnd + 1) with false by lia; reflexivity. }
    destruct T0 as (i' & p2 & T0 & T1).
    assert (R' : reach junk m (len a + 2) bnd (len w) 0 multipart_parser_init (0 + len bnd) s).
    { inversion R as [? ? Ei|? ? i2 p2' ? ? Li T R2]; subst; [lia|]. eapply reach_step; [exact Li|exact T0|]. rewrite T1 in T. injection T as <- <-. exact R2. }
    assert (E1 : m = ((a ++ str "--") ++ bnd) ++ x :: y :: po ++ 0 :: q) by (rewrite Em, <- !app_assoc; reflexivity). pose proof (at_app junk (len a + 2) _ bnd _ A0) as A1.
    destruct (Z.eq_dec x 13) as [->|Nc].
    - exists (0 + len bnd + 1), (set_index (len bnd + 1) s). split; [lia|]. split; [|split; assumption].
      assert (E2 : m = (((a ++ str "--") ++ bnd) ++ [13]) ++ y :: po ++ 0 :: q) by (rewrite E1, <- !app_assoc; reflexivity). pose proof (at_next junk (len a + 2) _ 13 _ A1) as A2.
      eapply loop_reach; [eapply reach_trans; [exact R'|apply (reach_one junk m (len a + 2) bnd (len w) (0 + len bnd) s (0 + len bnd + 1) (set_index (len bnd + 1) s))]| | |change (bonus multipart_parser_init) with 0; lia].
      + lia.
      + unfold execute_turn. rewrite (rd_at m _ _ _ _ E1 A1). cbn [bind]. rewrite V1. unfold at_start_boundary. rewrite X, Z.eqb_refl. reflexivity.
      + lia.
      + unfold execute_turn. rewrite (rd_at m _ _ _ _ E2 A2). cbn [bind p_state set_index]. rewrite V1. unfold at_start_boundary. cbn [p_index set_index].
        replace (len bnd + 1 =? len bnd) with false by lia. rewrite Z.eqb_refl. replace (y =? LF) with false by (unfold LF; lia). reflexivity.
    - exists (0 + len bnd), s. split; [lia|]. split; [|split; assumption]. eapply loop_reach; [exact R'| | |change (bonus multipart_parser_init) with 0; lia]; [lia|].
      unfold execute_turn. rewrite (rd_at m _ _ _ _ E1 A1). cbn [bind]. rewrite V1. unfold at_start_boundary. rewrite X, Z.eqb_refl.
      replace (x =? CR) with false by (unfold CR; lia). replace (x =? 45) with false by lia. reflexivity. }
  destruct Ls as (k & p' & Lk & -> & Kk & Kc). cbn [bind]. unfold both_populated. rewrite Kk, Kc. change (negb (len (@nil Z) =? 0)) with false. cbn [andb].
  replace (k <? len w) with true by lia. reflexivity.
Qed.

Theorem bad_delimiter : forall junk evs d c hs pr B x y po, let body := pr ++ str "--" ++ B ++ x :: y :: po in
  arrives evs d -> response d 200 hs body -> clean_head d body -> plain_headers hs -> no_leading_newline body -> len d + 45 <= 2000000 ->
  announced hs B -> boundary_string 69 B -> hd 0 B <> 45 ->
  ~ In 0 pr -> (forall u v, pr ++ str "--" ++ B = u ++ B ++ v -> v = []) -> x <> 0 -> y <> 0 ->
  x <> 45 -> ~ (x = 13 /\ y = 10) ->
  est_io_get_keygen_response junk evs c = Ok (EST_ERR_MULTIPART_PARSE, None, set_status 200 c).
Proof.
  intros junk evs d c hs pr B x y po body A R C P Nl L [An1 An2] HB HB0 Npr U X0 Y0 X45 Xy.
  assert (HB70 : boundary_string 70 B) by (destruct HB as (? & ? & ?); repeat split; auto; lia).
  destruct (the_keygen_response d 200 hs body R C P Nl) as [Ek Eb].
  assert (Rd : est_io_read_raw evs [] = (EST_ERR_NONE, d)) by (apply read_arrives; [exact A|unfold EST_CA_MAX; lia]).
  assert (St : first_status status_codes d = 200) by (eapply status_of; [exact R|cbn; auto]).
  assert (Ld : 0 < len d). { destruct R as (num & reason & _ & _ & _ & _ & E). rewrite E, len_app. change (len (str "HTTP/1.1 ")) with 9. match goal with |- 0 < 9 + len ?x => pose proof (len_nonneg _ x) end. lia. }
  pose proof (keygen_run junk evs d c Rd Ld ltac:(unfold EST_CA_MAX; lia)) as K. cbv zeta in K.
  rewrite Ek, (kbs_announced B hs None HB70 An1 (or_intror An2)), St in K.
  destruct K as (_ & _ & K). destruct (K eq_refl B eq_refl) as (_ & pre & post & Lp & _ & _ & K'). clear K. rewrite K'. clear K'. rewrite Eb.
  assert (NB : no_nul B). { destruct HB as (_ & Fb & _). intro I. rewrite Forall_forall in Fb. apply Fb in I. apply boundary_facts in I. tauto. }
  assert (Ng : no_nul (str "--")) by (apply no_nul_lit; reflexivity).
  assert (Et : text body = pr ++ (str "--" ++ B ++ x :: y :: text po)).
  { unfold body. rewrite !text_app by auto. f_equal. f_equal. f_equal. unfold text. cbn [take_while]. replace (negb (x =? 0)) with true by lia. replace (negb (y =? 0)) with true by lia. reflexivity. }
  rewrite Et. set (W := str "--" ++ B ++ x :: y :: text po).
  assert (NW : no_nul W). { unfold W. apply no_nul_join; [exact Ng|]. apply no_nul_join; [exact NB|]. intros [I|[I|I]]; [lia|lia|]. exact (text_no_nul po I). }
  assert (Fi : find_sub B (pr ++ W) = Some (len pr + 2)).
  { unfold W. rewrite (app_assoc pr (str "--")). rewrite find_sub_exact; [rewrite len_app; reflexivity|]. intros u v E. apply (U u v). rewrite app_assoc. exact E. }
  rewrite Fi. replace (len pre + (len pr + 2) - 2) with (len (pre ++ pr)) by (rewrite len_app; lia).
  rewrite (payload_bad junk _ B (pre ++ pr) x y (text po) post); auto.
  - destruct HB as (? & _). lia.
  - destruct B as [|b B]; [destruct HB as (Lz & _); cbn in Lz; lia|]. exact HB0.
  - fold W. rewrite <- !app_assoc. reflexivity.
Qed.
