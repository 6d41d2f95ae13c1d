(** C93: a server distributes the CA certificates it was given. *)
From Coq Require Import ZArith List Bool Lia.
From Verif Require Import Base Spec.CaCerts Model.EstErr Model.Config Model.TrustStore Model.CaCerts.
From Verif Require Model.Server.
Import ListNotations.
Open Scope Z_scope.

Lemma push_spec : forall sk st n, push_certs sk st n = (st ++ certificates sk, n + len (certificates sk)).
Proof.
  induction sk as [|i sk IH]; intros st n; cbn.
  - now rewrite app_nil_r, Z.add_0_r.
  - destruct (i_x509 i) as [c|]; rewrite IH; [rewrite len_cons, <- app_assoc; cbn [app]; f_equal; lia|reflexivity].
Qed.

(** The answer is made from the certificates of the file and of nothing else in
    it (keys, revocation lists), in their order. *)
Theorem C93_loaded : forall X W mode raw e r, est_load_ca_certs X W mode raw = (e, r) ->
  (e = EST_ERR_NONE <-> r <> None)
  /\ (mode = EST_CLIENT -> e = EST_ERR_BAD_MODE)
  /\ (forall b, r = Some b <-> mode <> EST_CLIENT /\ exists file, o_read X raw = Some file /\ W (certificates file) = Some b /\ b <> []).
Proof.
  intros X W mode raw e r H. unfold est_load_ca_certs, est_get_certs_pkcs7, est_add_certs_from_BIO in H.
  assert (G : forall b, mode <> EST_CLIENT -> match match o_read X raw with None => None | Some sk => W (certificates sk) end with Some b => if len b <=? 0 then (EST_ERR_LOAD_CACERTS, None) else (EST_ERR_NONE, Some b) | None => (EST_ERR_LOAD_CACERTS, None) end = (e, r) ->
    (e = EST_ERR_NONE <-> r <> None) /\ (r = Some b <-> exists file, o_read X raw = Some file /\ W (certificates file) = Some b /\ b <> [])).
  { intros b _ Q. destruct (o_read X raw) as [sk|]; [|injection Q as <- <-; split; [split; [discriminate|congruence]|split; [discriminate|intros (f & F & _); discriminate F]]].
    destruct (W (certificates sk)) as [w|] eqn:Ew.
    - destruct w as [|x w]; [change (len (@nil Z) <=? 0) with true in Q; cbn match in Q|replace (len (x :: w) <=? 0) with false in Q by (rewrite len_cons; pose proof (len_nonneg _ w); lia)]; injection Q as <- <-.
      + split; [split; [discriminate|congruence]|split; [discriminate|]]. intros (f & F & Fb & N). injection F as <-. congruence.
      + split; [split; [discriminate|reflexivity]|split]; [intro E; injection E as <-; exists sk; repeat split; [exact Ew|discriminate]|]. intros (f & F & Fb & N). injection F as <-. congruence.
    - injection Q as <- <-. split; [split; [discriminate|congruence]|split; [discriminate|]]. intros (f & F & Fb & N). injection F as <-. congruence. }
  assert (P : forall sk, match (let '(stack, n) := push_certs sk [] 0 in if n <? 0 then None else W stack) with Some b => if len b <=? 0 then (EST_ERR_LOAD_CACERTS, None) else (EST_ERR_NONE, Some b) | None => (EST_ERR_LOAD_CACERTS, None) end
    = match W (certificates sk) with Some b => if len b <=? 0 then (EST_ERR_LOAD_CACERTS, None) else (EST_ERR_NONE, Some b) | None => (EST_ERR_LOAD_CACERTS, None) end).
  { intro sk. rewrite push_spec. cbn [app]. pose proof (len_nonneg _ (certificates sk)). replace (0 + len (certificates sk) <? 0) with false by lia. reflexivity. }
  destruct mode; cbn match in H.
  1, 2: destruct (o_read X raw) as [sk|] eqn:R; [rewrite P in H|cbn in H]; (split; [apply (G [] ltac:(discriminate) H)|]; split; [discriminate|]; intro b; destruct (G b ltac:(discriminate) H) as [_ K]; rewrite K; split; [intro Q; split; [discriminate|exact Q]|intros [_ Q]; exact Q]).
  injection H as <- <-. split; [split; [discriminate|congruence]|]. split; [reflexivity|]. intro b. split; [discriminate|]. intros [Q _]. congruence.
Qed.
Print Assumptions C93_loaded.
(** A file without any certificate is taken too (unlike the trusted
    certificates, C92): the server distributes an empty list. *)
Theorem C93_loaded_refuted : exists X W raw b, o_read X raw = Some [] /\ W [] = Some b /\ est_load_ca_certs X W EST_SERVER raw = (EST_ERR_NONE, Some b).
Proof. exists {| o_read := fun _ => Some []; o_takes := fun _ => true; o_store_new := true |}, (fun _ => Some [77; 67]), [104; 105], [77; 67]. repeat split; reflexivity. Qed.
Print Assumptions C93_loaded_refuted.

(** Over HTTP every request of every history gets what is due to it; in the end
    est_destroy frees the library's block and nothing of the application's. *)
Definition of_loaded (loaded : option bytes) : option block := match loaded with Some b => Some (Own b) | None => None end.
Theorem C93_http : forall loaded h,
  requests Model.Server.EST_HTTP h (of_loaded loaded) = (map (due loaded) h, of_loaded loaded)
  /\ est_destroy (of_loaded loaded) = match loaded with Some b => [Own b] | None => [] end.
Proof.
  intros loaded h. split; [|destruct loaded; reflexivity]. induction h as [|a h IH]; [reflexivity|]. cbn [requests map].
  destruct a as [[[id b]|]|]; cbn; rewrite ?IH; try reflexivity. destruct loaded; cbn in *; rewrite IH; reflexivity.
Qed.
Print Assumptions C93_http.
(** Over CoAP the same is true while the application's function, once it has
    answered, stays registered; and the library's block is freed if it never
    answered. *)
Definition answered (a : option (option (Z * bytes))) : Prop := exists x, a = Some (Some x).
Theorem C93_coap_partial : forall loaded h,
  (forall h1 a h2 b h3, h = h1 ++ a :: h2 ++ b :: h3 -> answered a -> b <> None) ->
  fst (requests Model.Server.EST_COAP h (of_loaded loaded)) = map (due loaded) h
  /\ (Forall (fun a => ~ answered a) h -> est_destroy (snd (requests Model.Server.EST_COAP h (of_loaded loaded))) = match loaded with Some b => [Own b] | None => [] end).
Proof.
  intros loaded h. 
  assert (G : forall h ca, Forall (fun b => b <> None) h -> fst (requests Model.Server.EST_COAP h ca) = map (due loaded) h).
  { induction h0 as [|a h0 IH]; intros ca F; [reflexivity|]. inversion F as [|? ? N F']; subst. cbn [requests map].
    destruct a as [[[id b]|]|]; [| |congruence]; cbn.
    - specialize (IH (Some (App id b)) F'). destruct (requests _ h0 _); cbn in *. now rewrite IH.
    - specialize (IH ca F'). destruct (requests _ h0 _); cbn in *. now rewrite IH. }
  induction h as [|a h IH]; intro H; [split; [reflexivity|intros _; destruct loaded; reflexivity]|].
  assert (H' : forall h1 a0 h2 b h3, h = h1 ++ a0 :: h2 ++ b :: h3 -> answered a0 -> b <> None) by (intros h1 a0 h2 b h3 E; apply (H (a :: h1) a0 h2 b h3); cbn; now rewrite E).
  destruct (IH H') as [I1 I2]. cbn [requests map]. destruct a as [[[id b]|]|].
  - cbn. split.
    + assert (F : Forall (fun b => b <> None) h).
      { apply Forall_forall. intros x I. apply in_split in I. destruct I as (l1 & l2 & ->). apply (H [] (Some (Some (id, b))) l1 x l2); [reflexivity|eexists; reflexivity]. }
      specialize (G h (Some (App id b)) F). destruct (requests _ h _); cbn in *. now rewrite G.
    + intro F. inversion F as [|? ? N _]; subst. exfalso. apply N. eexists. reflexivity.
  - cbn. destruct (requests _ h _); cbn in *. split; [now rewrite I1|]. intro F. inversion F; subst. auto.
  - destruct loaded as [b|]; cbn in *; destruct (requests _ h _); cbn in *; (split; [now rewrite I1|]); intro F; inversion F; subst; auto.
Qed.
Print Assumptions C93_coap_partial.
(** Otherwise: once the function has answered over CoAP, what was loaded is
    lost.  A request after the function is taken away gets the function's last
    answer, and est_destroy frees the application's block, not the library's. *)
Theorem C93_coap_refuted : forall own id b, own <> b ->
  let h := [Some (Some (id, b)); None] in
  fst (requests Model.Server.EST_COAP h (Some (Own own))) = [Some b; Some b] /\ map (due (Some own)) h = [Some b; Some own]
  /\ est_destroy (snd (requests Model.Server.EST_COAP h (Some (Own own)))) = [App id b].
Proof. intros. repeat split. Qed.
Print Assumptions C93_coap_refuted.

(** Two certificates and a key; three requests over CoAP. *)
Example C93_case :
  est_load_ca_certs {| o_read := fun _ => Some [{| i_x509 := Some {| t_subject := []; t_der := [1] |}; i_crl := None |}; {| i_x509 := None; i_crl := None |}; {| i_x509 := Some {| t_subject := []; t_der := [2] |}; i_crl := Some [3] |}]; o_takes := fun _ => true; o_store_new := true |}
    (fun l => Some (concat l)) EST_SERVER [45] = (EST_ERR_NONE, Some [1; 2])
  /\ fst (requests Model.Server.EST_COAP [None; Some None; Some (Some (7, [9]))] (Some (Own [1; 2]))) = [Some [1; 2]; None; Some [9]].
Proof. split; reflexivity. Qed.
