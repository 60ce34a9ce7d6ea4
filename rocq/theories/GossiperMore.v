(** Consequences of invariants and closed forms, in the shape of the
    properties. *)
From Verif Require Import Bytes Hex Json Types Crypto Verify Prog Gossiper SpecCodec SpecVerify SpecGossiper ProgFacts GstFacts CodecFacts CryptoFacts VerifyFacts GWalk GossiperInv GossiperSeq GossiperWalks GossiperEvidence GossiperLocal GossiperStep GossiperSeqInv GossiperConflict GossiperFrag.
From Coq Require Import Lia.
Open Scope string_scope.

Section more.
Context {P : prims} (cfg : gconf P).
Notation cc := (gc_crypto cfg).
Notation T := (cc_threshold cc).

(** ** C08 *)
Lemma black_seq a b c l1 l2 :
  t_black (s_st (steps cfg (init_gsys a b c) l1)) ⊆ t_black (s_st (steps cfg (init_gsys a b c) (l1 ++ l2))).
Proof. rewrite steps_app. apply steps_black. Qed.

(** ** C09 *)
Lemma object_black n g s : g_p0 g ∈ t_black s ->
  (g_type g = REV_INIT -> (n <= gc_opt_threshold cfg)%Z) -> (g_type g = REV_FRAG -> gc_opt_mode cfg = false) ->
  run (object_handler cfg n g) s = (s, [], Done tt).
Proof.
  intros Hb H1 H2. unfold object_handler.
  replace (Z.ltb (gc_opt_threshold cfg) n && bool_decide (obj_kind g = KObj (OInit Rev))) with false.
  2: { symmetry. case_bool_decide as Hk; [|by rewrite andb_false_r]. apply obj_kind_obj in Hk. specialize (H1 Hk).
       rewrite andb_true_r. by apply Z.ltb_ge. }
  replace (gc_opt_mode cfg && bool_decide (obj_kind g = KFrag Rev)) with false.
  2: { symmetry. case_bool_decide as Hk; [|by rewrite andb_false_r]. apply obj_kind_frag in Hk. by rewrite H2. }
  cbn [pwhen pskip pbind]. by apply handle_black.
Qed.

(** A blacklisted REV statement changes at most the payload cache. *)
Lemma object_black_rev n g s : g_p0 g ∈ t_black s -> g_type g <> REV_FRAG \/ gc_opt_mode cfg = false ->
  exists p r, run (object_handler cfg n g) s = (set_payload s p, [], r).
Proof.
  intros Hb H2. unfold object_handler.
  replace (gc_opt_mode cfg && bool_decide (obj_kind g = KFrag Rev)) with false.
  2: { symmetry. destruct H2 as [H2| ->]; [|done]. case_bool_decide as Hk; [|by rewrite andb_false_r]. by apply obj_kind_frag in Hk. }
  assert (forall m, s = set_payload s (t_payload s) /\ t_black (set_payload s m) = t_black s) as Hs by (destruct s; done).
  destruct (_ && _); cbn [pwhen]; rewrite run_bind.
  - unfold save_payload. destruct (verify cc g); cbn [pmodify pskip run pbind].
    + rewrite handle_black by (by rewrite (proj2 (Hs _))). eauto.
    + rewrite handle_black by done. exists (t_payload s). rewrite <- (proj1 (Hs ∅)). eauto.
    + exists (t_payload s). rewrite <- (proj1 (Hs ∅)). eauto.
  - cbn [pskip run]. rewrite handle_black by done. exists (t_payload s). rewrite <- (proj1 (Hs ∅)). eauto.
Qed.

(** ** C11-C14 *)
Lemma reach_tables s : reachable cfg s -> tables_ok cfg s /\ payload_ok cfg s.
Proof. intros (H1 & H2 & _)%reachable_inv. done. Qed.

Lemma reach_buckets s : reachable cfg s -> buckets_ok cfg s.
Proof. intros (_ & _ & H3 & _)%reachable_inv. done. Qed.

Lemma trace_in s e : reachable cfg s -> e ∈ t_trace s -> exists before, before `prefix_of` t_trace s /\ evt_ok cfg before e.
Proof.
  intros (_ & _ & _ & H4 & _)%reachable_inv He. apply elem_of_list_split in He as (a & b & E). exists a. split; [|by eapply H4].
  rewrite E. by apply prefix_app_r.
Qed.

Lemma monitor_verified s u g : reachable cfg s -> ToMonitor u g ∈ t_trace s ->
  is_full g \/ (verify cc g = Accept /\ EvStored g ∈ t_trace s /\ relayed g).
Proof.
  intros Hr He. destruct (trace_in s _ Hr He) as (bf & Hp & [H|(H1 & H2 & H3)]); [by left|right].
  split_and!; auto. by eapply elem_of_prefix.
Qed.

Lemma gossip_verified s u ep g : reachable cfg s -> ToGossiper u ep (MObj g) ∈ t_trace s ->
  is_frag g \/ (verify cc g = Accept /\ relayed g).
Proof. intros Hr He. by destruct (trace_in s _ Hr He) as (bf & Hp & H). Qed.

Lemma crossing s f i n v : reachable cfg s -> i_type i = frag_type f ->
  befores i (since_wipe (t_trace s)) !! n = Some v -> v = min n T.
Proof.
  intros (_ & _ & _ & _ & H5)%reachable_inv Hi Hv. destruct (H5 f i Hi) as [H _]. cbn zeta in H. rewrite H in Hv.
  apply list_lookup_fmap_Some in Hv as (x & Hx & ->). by apply lookup_seq in Hx as [-> _].
Qed.

Lemma crossing_once s f i n m : reachable cfg s -> i_type i = frag_type f -> 
  befores i (since_wipe (t_trace s)) !! n = Some (T - 1) -> befores i (since_wipe (t_trace s)) !! m = Some (T - 1) -> 0 < T -> n = m.
Proof. intros Hr Hi Hn Hm HT. apply (crossing s f i) in Hn; auto. apply (crossing s f i) in Hm; auto. lia. Qed.

Lemma bucket_size s f i : reachable cfg s -> i_type i = frag_type f ->
  length (get_object_list s i f) = min (length (befores i (since_wipe (t_trace s)))) T.
Proof. intros (_ & _ & _ & _ & H5)%reachable_inv Hi. apply (H5 f i Hi). Qed.

Lemma full_size s g : reachable cfg s -> EvFull g ∈ t_trace s -> is_full g /\ length (g_signers g) = T.
Proof. intros Hr He. by destruct (trace_in s _ Hr He) as (bf & Hp & H). Qed.

(** ** C15 *)
Lemma held_dup s g : already_held s g -> is_duplicate s g = true.
Proof.
  intros [(k & o & Ht & Ho & E0 & E1)|(f & l & o & Ht & Hl & Ho & E0 & E1)]; unfold is_duplicate.
  - assert (obj_kind g = KObj k) as -> by (by apply obj_kind_obj). rewrite Ho. unfold same_sig. rewrite E0, E1. by rewrite !bool_decide_eq_true_2.
  - assert (obj_kind g = KFrag f) as -> by (by apply obj_kind_frag). unfold get_object_list, frags_at. rewrite Hl.
    apply existsb_exists. exists o. split; [by apply elem_of_list_In|]. unfold same_sig. rewrite E0, E1. by rewrite !bool_decide_eq_true_2.
Qed.

Lemma held_noop s g : already_held s g -> run (handle cfg g) s = (s, [], Done tt).
Proof. intros H. apply handle_dup, held_dup, H. Qed.

Lemma held_noop_many s l : Forall (already_held s) l -> handle_all cfg l s = s.
Proof.
  unfold handle_all. induction 1 as [|g l Hg _ IH]; [done|]. cbn [fold_left]. by rewrite held_noop.
Qed.

(** Once handled, a new valid statement or proof is held. *)
Lemma sends_announcement g : g_type g = STH_INIT \/ g_type g = REV_INIT \/ g_type g = CON_INIT ->
  outgoing cfg g = announcement cfg g.
Proof.
  intros Ht. unfold outgoing, announcement. destruct Ht as [Ht|[Ht|Ht]].
  - assert (obj_kind g = KObj (OInit Sth)) as -> by (unfold obj_kind; by rewrite Ht). by rewrite decide_True.
  - assert (obj_kind g = KObj (OInit Rev)) as -> by (unfold obj_kind; by rewrite Ht).
    rewrite (decide_False (P:=g_type g = STH_INIT)), (decide_False (P:=g_type g = CON_INIT)) by (by rewrite Ht). unfold oversized, len.
    destruct (Z.ltb_spec (gc_opt_threshold cfg) (Z.of_nat (String.length (gobj_marshal g)))).
    + by rewrite decide_True.
    + rewrite decide_False by lia. done.
  - assert (obj_kind g = KObj OCon) as -> by (unfold obj_kind; by rewrite Ht).
    rewrite (decide_False (P:=g_type g = STH_INIT)) by (by rewrite Ht). by rewrite decide_True.
Qed.

Lemma stmt_table_at s g f : f <> Acc -> obj_kind g = KObj (OInit f) -> statement_table s g = get_tbl s (OInit f).
Proof.
  intros Hf Hk. apply obj_kind_obj in Hk. unfold statement_table. rewrite Hk. by destruct f.
Qed.

Lemma new_statement s g : reachable cfg s -> 0 < T -> statement g -> verify cc g = Accept ->
  statement_table s g !! get_id g = None -> g_signer g <> "" -> g_p0 g ∉ t_black s ->
  exists s', run (handle cfg g) s = (s', [SignLater g], Done tt) /\
    statement_table s' g = <[get_id g := g]> (statement_table s g) /\
    t_trace s' = (t_trace s ++ EvStored g :: publication cfg g)%list.
Proof.
  intros Hr HT Hs Hv Hno Hsg Hb. destruct (statement_fam g Hs) as (f & Hf & Hk). rewrite (stmt_table_at _ _ f) in Hno by done.
  unfold handle. rewrite (handle_stmt cfg 2 f) by (auto; by apply reachable_inv).
  assert (is_duplicate s g = false) as -> by (unfold is_duplicate; by rewrite Hk, Hno).
  unfold in_blacklist. rewrite bool_decide_eq_false_2 by done.
  assert (is_malicious s g = false) as ->.
  { unfold is_malicious, get_object, obj_at. rewrite Hk. destruct f; [| |done]; rewrite Hno; rewrite bool_decide_eq_false_2 by done; done. }
  rewrite Hv. eexists. split; [reflexivity|]. rewrite !(stmt_table_at _ _ f) by done. unfold published. autorewrite with gst.
  destruct (conv_i_fields cfg (inserted s (OInit f) g)) as (-> & _ & _ & -> & _). unfold inserted. autorewrite with gst.
  rewrite get_tbl_set_tbl_eq. split; [done|]. unfold publication, sends. rewrite sends_announcement by (destruct Hs; auto).
  rewrite <- !app_assoc. done.
Qed.

Lemma new_conflict s g : reachable cfg s -> is_con g -> verify cc g = Accept ->
  t_con_init s !! get_id g = None -> g_p0 g ∉ t_black s ->
  exists s', run (handle cfg g) s = (s', [], Done tt) /\
    t_con_init s' = <[get_id g := g]> (t_con_init s) /\ t_black s' = {[g_p0 g]} ∪ t_black s /\
    t_trace s' = (t_trace s ++ EvStored g :: publication cfg g)%list.
Proof.
  intros Hr Hs Hv Hno Hb. assert (obj_kind g = KObj OCon) as Hk by (unfold obj_kind; by rewrite Hs).
  unfold handle. rewrite (handle_conflict cfg 2) by done.
  change (t_con_init s) with (get_tbl s OCon) in Hno.
  assert (is_duplicate s g = false) as -> by (unfold is_duplicate; by rewrite Hk, Hno).
  unfold in_blacklist at 1. rewrite bool_decide_eq_false_2 by done. rewrite Hno, Hv. eexists. split; [reflexivity|].
  unfold published. change t_con_init with (λ s, get_tbl s OCon). cbn beta. autorewrite with gst.
  destruct (conv_i_fields cfg (black_add (inserted s OCon g) (g_p0 g))) as (-> & _ & -> & -> & _).
  destruct (black_add_fields (inserted s OCon g) (g_p0 g)) as (-> & _ & -> & -> & _).
  unfold inserted. autorewrite with gst. rewrite get_tbl_set_tbl_eq. split; [done|]. split; [done|].
  unfold publication, sends. rewrite sends_announcement by auto. rewrite <- !app_assoc. done.
Qed.

Lemma con_needs_second now o g f : obj_kind g = KObj (OInit f) -> g_p0 g <> "" ->
  verify cc (generate_con now o g) = Accept -> verify cc g = Accept.
Proof.
  intros Hk Hp. unfold verify. rewrite con_kind, Hk. unfold verify_con, verify_rsa_payload, generate_con. cbn [g_s0 g_s1 g_p1 g_p2].
  destruct (rsasig_from_string (g_s0 o)); [|done]. destruct (rsasig_from_string (g_s0 g)) as [s2|] eqn:E2; [|done].
  destruct (is_empty (g_p0 g)) eqn:Ep; [by apply is_empty_true in Ep|].
  destruct (is_empty (g_s0 g)) eqn:Es; [apply is_empty_true in Es; by rewrite Es in E2|]. cbn.
  destruct (cc_verify cc (signed_msg o) r); cbn; [done| |done]. by destruct (cc_verify cc (signed_msg g) s2).
Qed.

(** A statement that does not verify changes nothing. *)
Lemma rejected_noop s g : reachable cfg s -> 0 < T -> statement g \/ is_con g -> verify cc g = Reject ->
  run (handle cfg g) s = (s, [], Done tt).
Proof.
  intros Hr HT [Hs|Hs] Hv.
  - destruct (statement_fam g Hs) as (f & Hf & Hk). pose proof (reachable_inv cfg s Hr) as HI.
    unfold handle. rewrite (handle_stmt cfg 2 f) by auto. destruct (is_duplicate s g); [done|]. destruct (in_blacklist s (g_p0 g)); [done|].
    rewrite Hv. destruct (is_malicious s g); [|done]. rewrite (handle_conflict cfg 1) by apply con_kind.
    destruct (is_duplicate _ _); [done|]. destruct (in_blacklist _ _); [done|]. destruct (get_tbl _ _ !! _); [done|].
    set (now := (k_period s, k_stamp s)).
    destruct (verify cc (generate_con now _ g)) eqn:Hc; [|done|].
    + exfalso. destruct (get_object_cases cfg s (get_id g) (OInit f) HI) as [Hz|(o & Ho & _ & Ov & Oi & Ot)].
      { rewrite Hz in Hc. by apply con_zero_rejected in Hc. }
      assert (g_p0 g <> "") as Hp.
      { injection Oi as _ _ Hp. rewrite <- Hp. apply verify_iff in Ov.
        assert (obj_kind o = KObj (OInit f)) as Ok by (by apply obj_kind_obj). unfold acceptable in Ov.
        rewrite is_init_kind, is_frag_kind, is_full_kind, is_con_kind, Ok in Ov. destruct Ov as [Ov|[[[? ?] _]|[[[? ?] _]|[? _]]]]; try done. naive_solver. }
      apply (con_needs_second _ _ _ f) in Hc; [congruence|done|done].
    + exfalso. revert Hc. destruct (get_object_cases cfg s (get_id g) (OInit f) HI) as [->|(o & -> & _ & Ov & Oi & Ot)].
      { apply (con_no_panic cfg now _ g f); auto. by rewrite Hv. }
      apply (con_no_panic cfg now _ g f); auto; [right; split; [by apply obj_kind_obj|done]|by rewrite Hv|]. left. by injection Oi.
  - assert (obj_kind g = KObj OCon) as Hk by (unfold obj_kind; by rewrite Hs).
    unfold handle. rewrite (handle_conflict cfg 2) by done. destruct (is_duplicate s g); [done|]. destruct (in_blacklist s (g_p0 g)); [done|].
    destruct (get_tbl _ _ !! _); [done|]. by rewrite Hv.
Qed.

(** Accusations are not relayed. *)
Lemma acc_not_relayed s g : reachable cfg s -> g_type g = ACC_INIT ->
  (forall u ep, ToGossiper u ep (MObj g) ∉ t_trace s) /\ (forall u, ToMonitor u g ∉ t_trace s).
Proof.
  intros Hr Ht. split.
  - intros u ep He. destruct (gossip_verified s u ep g Hr He) as [H|[_ H]].
    + unfold is_frag in H. rewrite Ht in H. by destruct H as [H|[H|H]].
    + unfold relayed in H. rewrite Ht in H. by destruct H as [H|[H|H]].
  - intros u He. destruct (monitor_verified s u g Hr He) as [H|(_ & _ & H)].
    + unfold is_full in H. rewrite Ht in H. by destruct H as [H|[H|H]].
    + unfold relayed in H. rewrite Ht in H. by destruct H as [H|[H|H]].
Qed.

(** ** C19 *)
Lemma strip_restore s g o : t_payload s !! mkgid (g_period g) REV_INIT (g_p0 g) = Some o ->
  g_p0 o = g_p0 g -> g_p1 o = g_p1 g -> g_p2 o = g_p2 g -> reconstruct_payload s (remove_payload g) = g.
Proof.
  intros Ho E0 E1 E2. unfold reconstruct_payload, obj_at. assert (g_p0 (remove_payload g) = g_p0 g /\ g_period (remove_payload g) = g_period g) as [-> ->] by (by destruct g).
  rewrite Ho. destruct g as [a p t si ss s0 s1 ti sc p0 p1 p2]. cbn in *. by rewrite E0, E1, E2.
Qed.

Lemma stripped_handled n s g o : gc_opt_mode cfg = true -> g_type g = REV_FRAG ->
  t_payload s !! mkgid (g_period g) REV_INIT (g_p0 g) = Some o ->
  g_p0 o = g_p0 g -> g_p1 o = g_p1 g -> g_p2 o = g_p2 g ->
  run (object_handler cfg n (remove_payload g)) s = run (handle cfg g) s.
Proof.
  intros Hm Ht Ho E0 E1 E2. unfold object_handler.
  assert (obj_kind (remove_payload g) = KFrag Rev) as Hk by (destruct g; unfold obj_kind; cbn in *; by rewrite Ht).
  rewrite Hk, Hm. rewrite (bool_decide_eq_false_2 (KFrag Rev = KObj (OInit Rev))) by done. rewrite andb_false_r.
  rewrite bool_decide_eq_true_2 by done. cbn [pwhen pskip pbind andb pread run]. by rewrite (strip_restore s g o).
Qed.

Lemma uncached_loses_entity s g : t_payload s !! mkgid (g_period g) REV_INIT (g_p0 g) = None ->
  g_p0 (reconstruct_payload s g) = "" /\ g_p1 (reconstruct_payload s g) = "" /\ g_p2 (reconstruct_payload s g) = "".
Proof. intros Ho. unfold reconstruct_payload, obj_at. rewrite Ho. by destruct g. Qed.

(** ** C20 *)
Lemma signed_accepted s g fr : reachable cfg s -> EvSigned g fr ∈ t_trace s ->
  EvStored g ∈ t_trace s /\ verify cc g = Accept /\ is_init g /\
  g_period fr = g_period g /\ g_p0 fr = g_p0 g /\ g_p1 fr = g_p1 g /\ g_p2 fr = g_p2 g /\
  g_signer fr = cc_self cc /\ is_frag fr /\
  exists sf, cc_thr_sign cc (covered g) = Some sf /\ g_s0 fr = sigfrag_string sf.
Proof.
  intros Hr He. destruct (trace_in s _ Hr He) as (bf & Hp & H1 & H2 & sf & H3 & ->).
  assert (EvStored g ∈ t_trace s) as Hs by (by eapply elem_of_prefix).
  destruct (trace_in s _ Hr Hs) as (bf' & _ & Hv & _).
  assert (is_frag (frag_of cfg g (sigfrag_string sf))) as Hfr.
  { apply is_init_kind in H2 as [f Hk]. apply is_frag_kind. exists f. by apply frag_of_kind. }
  split_and!; auto; try (by destruct g). exists sf. split; [exact H3|]. by destruct g.
Qed.

(** ** C21, C55 *)
Lemma one_signer_plain sg l : Forall (one_signer sg) l -> Forall (plain_event (named sg)) l.
Proof. intros H. eapply Forall_impl; [exact H|]. by intros []. Qed.

Lemma sign_once_seq sg a b c l g1 g2 f1 f2 : Forall (one_signer sg) l ->
  let tr := t_trace (s_st (steps cfg (init_gsys a b c) l)) in
  EvSigned g1 f1 ∈ tr -> EvSigned g2 f2 ∈ tr -> statement g1 -> get_id g1 = get_id g2 -> g1 = g2.
Proof. intros Hl. eapply sign_once. by apply one_signer_plain. Qed.

Lemma relay_once_seq sg a b c l g : Forall (one_signer sg) l ->
  let s := s_st (steps cfg (init_gsys a b c) l) in
  EvStored g ∈ t_trace s -> statement g -> run (handle cfg g) s = (s, [], Done tt).
Proof.
  intros Hl s Hg Hs. destruct (steps_OS cfg sg a b c l) as (O1 & _); [by apply one_signer_plain|].
  destruct (O1 g Hg Hs) as (f & Hk & Hl'). apply held_noop. left. exists (OInit f), g. by apply obj_kind_obj in Hk.
Qed.

(** ** C22 *)
Lemma no_fuel a b c y : gpsteps cfg (init_pool a b c) y -> OutOfFuel ∉ p_crashes y.
Proof.
  intros Hy Hin. apply reachable_GI in Hy as [_ Hc]. rewrite Forall_forall in Hc. by apply Hc in Hin.
Qed.

(** ** C24 *)
Lemma full_fields l ty s s' ts full : run (generate_full cfg l ty) s = (s', ts, Done full) ->
  s' = s /\ g_type full = ty /\ g_period full = k_period s /\ g_signers full = map g_signer l /\
  exists g0 r, l = g0 :: r /\ g_p0 full = g_p0 g0 /\ g_p1 full = g_p1 g0 /\ g_p2 full = g_p2 g0.
Proof.
  unfold generate_full. destruct (cc_thr_aggregate _ _) as [t|]; [|done]. destruct l as [|g0 r]; [done|].
  cbn [pbind pread run]. intros [= <- <- <-]. split_and!; try done. exists g0, r. done.
Qed.

Lemma full_keeps l ty s s' ts full i p1 p2 : run (generate_full cfg l ty) s = (s', ts, Done full) ->
  k_period s = i_period i -> (forall g, g ∈ l -> g_period g = i_period i /\ g_p0 g = i_entity i /\ g_p1 g = p1 /\ g_p2 g = p2) ->
  g_period full = i_period i /\ g_p0 full = i_entity i /\ g_p1 full = p1 /\ g_p2 full = p2.
Proof.
  intros Hr Hk Hl. apply full_fields in Hr as (_ & _ & Hp & _ & g0 & r & -> & -> & -> & ->).
  destruct (Hl g0) as (_ & ? & ? & ?); [by left|]. rewrite Hp. done.
Qed.

(** ** C25 *)
Lemma reach_local s g : reachable cfg s ->
  agree_outside (λ x, x = g_p0 g) s (run (handle cfg g) s).1.1 /\ sends_about (λ x, x = g_p0 g) s (run (handle cfg g) s).1.1.
Proof. intros H. by apply handle_local, reachable_inv. Qed.

Lemma reach_object_local s n g : reachable cfg s ->
  agree_outside (λ x, x = g_p0 g \/ x = "") s (run (object_handler cfg n g) s).1.1 /\
  sends_about (λ x, x = g_p0 g \/ x = "") s (run (object_handler cfg n g) s).1.1.
Proof. intros H. by apply object_local, reachable_inv. Qed.

Lemma reach_object_local_cached s n g : reachable cfg s ->
  g_type g <> REV_FRAG \/ gc_opt_mode cfg = false \/ is_Some (t_payload s !! mkgid (g_period g) REV_INIT (g_p0 g)) ->
  agree_outside (λ x, x = g_p0 g) s (run (object_handler cfg n g) s).1.1 /\
  sends_about (λ x, x = g_p0 g) s (run (object_handler cfg n g) s).1.1.
Proof.
  intros H Hc. apply object_local_cached; [by apply reachable_inv|]. destruct Hc as [Hc|Hc]; [left|by right].
  intros Hk. apply obj_kind_frag in Hk. done.
Qed.

(** ** C56 *)
Lemma reach_frags_complete : agg_correct P -> fast_perm P -> (forall sg : bls_sig P, bls_deser (bls_ser sg) = Some sg) ->
  cc_thr_scheme cc = "bls" -> forall f i p1 p2 l s, reachable cfg s -> i_entity i <> "" -> i_entity i ∉ t_black s ->
  i_type i = frag_type f -> get_object_list s i f = [] ->
  get_tbl s (OFull f) !! mkgid (k_period s) (full_type f) (i_entity i) = None ->
  0 < T -> length l = T -> Forall (honest_fragment cc i p1 p2) l -> distinct_sigs l ->
  let s' := handle_all cfg l s in
  exists full, get_tbl s' (OFull f) !! get_id full = Some full /\ verify cc full = Accept /\
    get_id full = mkgid (k_period s) (full_type f) (i_entity i) /\ g_p1 full = p1 /\ g_p2 full = p2 /\
    g_signers full = map g_signer l /\ ToMonitor (gc_owner cfg) full ∈ t_trace s' /\ EvFull full ∈ t_trace s'.
Proof.
  intros H1 H2 H3 H4 f i p1 p2 l s Hr Hne Hb Ht He Hno HT Hlen Hh Hd. apply frags_complete; auto; [by apply reachable_inv|].
  eapply Forall_impl; [exact Hh|]. intros g (Hi & _). apply obj_kind_frag. rewrite <- Ht, <- Hi. done.
Qed.
End more.
