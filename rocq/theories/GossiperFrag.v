(** Fragments and aggregates, handled one at a time. *)
From Verif Require Import Bytes Hex Json Types Crypto Verify Prog Gossiper SpecCodec SpecVerify SpecGossiper ProgFacts GstFacts CodecFacts CryptoFacts VerifyFacts GWalk GossiperInv GossiperSeq GossiperEvidence GossiperStep.
From Coq Require Import Lia.
Open Scope string_scope.

Section frag.
Context {P : prims} (cfg : gconf P).
Notation cc := (gc_crypto cfg).
Notation T := (cc_threshold cc).

Lemma reachable_inv s : reachable cfg s -> GI cfg s.
Proof. intros (a & b & c & y & H & <-). by apply (reachable_GI cfg a b c). Qed.

(** ** Aggregates *)
Definition stored_full (s : gst) (f : fam) (g : gobj) : gst :=
  match verify cc g with
  | Accept => if decide (f = Acc) then black_add (inserted s (OFull f) g) (g_p0 g) else inserted s (OFull f) g
  | _ => s
  end.

Lemma handle_aggregate n f g s : obj_kind g = KObj (OFull f) ->
  run (handle_n cfg (S n) g) s =
  if is_duplicate s g then (s, [], Done tt)
  else if in_blacklist s (g_p0 g) then (s, [], Done tt)
  else match get_tbl s (OFull f) !! get_id g with
  | Some _ => (conv_f cfg s, [], Done tt)
  | None => (conv_f cfg (add_trace (stored_full s f g) [ToMonitor (gc_owner cfg) g]), [], Done tt)
  end.
Proof.
  intros Hk. cbn [handle_n]. unfold handle_body. cbn [pbind pread run].
  destruct (is_duplicate s g) eqn:Ed; [done|]. cbn [pbind pread run]. destruct (in_blacklist s (g_p0 g)) eqn:Eb; [done|].
  rewrite Hk. unfold handle_full. cbn [pbind pread run]. rewrite Eb. cbn [pbind pread run]. unfold obj_count.
  destruct (get_tbl s (OFull f) !! get_id g) eqn:El; cbn [Nat.eqb pskip pbind].
  { cbn. unfold conv_f. by destruct (is_convergent cfg s). }
  rewrite run_bind, run_bind. unfold stored_full. destruct (verify cc g) eqn:Hv.
  - rewrite run_store by done. rewrite Hk. cbn. unfold conv_f. by destruct (is_convergent cfg _).
  - rewrite run_store_no by done. cbn. unfold conv_f. by destruct (is_convergent cfg _).
  - exfalso. revert Hv. unfold verify. rewrite Hk. unfold verify_payload_threshold, cc_thr_verify.
    repeat match goal with |- context [if ?b then _ else _] => destruct b end; done.
Qed.

Lemma conv_f_fields s : get_tbl (conv_f cfg s) = get_tbl s /\ get_frags (conv_f cfg s) = get_frags s /\ t_black (conv_f cfg s) = t_black s /\
  t_trace (conv_f cfg s) = t_trace s /\ t_payload (conv_f cfg s) = t_payload s.
Proof. unfold conv_f. destruct (is_convergent cfg s); destruct s; done. Qed.

(** ** Fragments *)
Definition added (s : gst) (f : fam) (g : gobj) : gst :=
  add_trace (set_frags s f (<[get_id g := (get_object_list s (get_id g) f ++ [g])%list]> (get_frags s f)))
            [EvBefore (get_id g) (length (get_object_list s (get_id g) f))].

(** The aggregate made from a list of fragments. *)
Definition full_of (s : gst) (f : fam) (g0 : gobj) (l : list gobj) (ts : thrsig P) : gobj :=
  mkobj CTNG_APPLICATION (k_period s) (full_type f) "" (map g_signer l) (thrsig_string ts) "" (k_stamp s) "bls"
        (g_p0 g0) (g_p1 g0) (g_p2 g0).

Lemma target_type_frag g f : obj_kind g = KFrag f -> target_type g = full_type f.
Proof. intros H. unfold target_type. rewrite H. by destruct f. Qed.

Lemma added_list s f g : get_object_list (added s f g) (get_id g) f = (get_object_list s (get_id g) f ++ [g])%list.
Proof.
  unfold get_object_list at 1, frags_at, added. autorewrite with gst. rewrite get_frags_set_frags, decide_True by done.
  by rewrite lookup_insert.
Qed.

Lemma handle_fragment n f g s : GI cfg s -> obj_kind g = KFrag f ->
  run (handle_n cfg (S n) g) s =
  if is_duplicate s g then (s, [], Done tt)
  else if in_blacklist s (g_p0 g) then (s, [], Done tt)
  else let l := get_object_list s (get_id g) f in
  if Nat.ltb (length l) T then
    if Nat.eqb (S (length l)) T then
      match cc_thr_aggregate cc (frags_of (l ++ [g])) with
      | None => (added s f g, [], Crashed NilDeref)
      | Some ts =>
          match run (handle_n cfg n (full_of s f (hd g l) (l ++ [g]) ts))
                    (add_trace (added s f g) [EvFull (full_of s f (hd g l) (l ++ [g]) ts)]) with
          | (s', ts', Done _) => (add_trace s' (sends cfg g), ts', Done tt)
          | (s', ts', Crashed w) => (s', ts', Crashed w)
          end
      end
    else (add_trace (added s f g) (sends cfg g), [], Done tt)
  else (add_trace s [EvBefore (get_id g) (length l)], [], Done tt).
Proof.
  intros HI Hk. cbn [handle_n]. unfold handle_body. cbn [pbind pread run].
  destruct (is_duplicate s g) eqn:Ed; [done|]. cbn [pbind pread run]. destruct (in_blacklist s (g_p0 g)) eqn:Eb; [done|].
  rewrite Hk. pose proof Hk as Ht. apply obj_kind_frag in Ht. unfold handle_frag. cbn [pbind pread run].
  rewrite (no_full_count cfg) by (auto; rewrite Ht; by destruct f). change (Nat.ltb 0 0) with false. cbn iota. cbn [pbind pread run patomic].
  unfold read_and_store. set (l := get_object_list s (get_id g) f). cbn zeta.
  destruct (Nat.ltb (length l) T) eqn:El.
  - fold l. change (add_trace (set_frags s f (<[get_id g:=(l ++ [g])%list]> (get_frags s f))) [EvBefore (get_id g) (length l)]) with (added s f g).
    destruct (Nat.eqb (S (length l)) T) eqn:ET.
    + rewrite run_bind. cbn [pbind pread run]. rewrite added_list. fold l. unfold generate_full. fold (frags_of (P:=P) (l ++ [g])).
      destruct (cc_thr_aggregate cc (frags_of (l ++ [g]))) as [ts|]; [|done].
      assert (exists r, (l ++ [g])%list = hd g l :: r) as [r Hr] by (destruct l; [by exists []|by eexists]).
      rewrite Hr at 1. cbn [pbind pread run pmodify].
      assert (k_period (added s f g) = k_period s) as E1 by (unfold added; by autorewrite with gst).
      assert (k_stamp (added s f g) = k_stamp s) as E2 by (unfold added; by autorewrite with gst).
      rewrite E1, E2, (target_type_frag g f) by done. cbn [fst snd].
      change (mkobj CTNG_APPLICATION (k_period s) (full_type f) "" (map g_signer (l ++ [g])) (thrsig_string ts) "" (k_stamp s) "bls"
        (g_p0 (hd g l)) (g_p1 (hd g l)) (g_p2 (hd g l))) with (full_of s f (hd g l) (l ++ [g]) ts).
      destruct (run (handle_n cfg n _) _) as [[s' ts'] [x|w]]; [|done].
      rewrite run_bind || idtac. cbn [pwhen send_to_gossipers pmodify run]. unfold send_to_gossipers. cbn. fold (sends cfg g).
      by rewrite app_nil_r.
    + cbn [pskip pbind pwhen send_to_gossipers pmodify run]. unfold send_to_gossipers. cbn. done.
  - destruct (Nat.eqb_spec (S (length l)) T) as [ET|ET].
    { exfalso. apply Nat.ltb_ge in El. lia. }
    done.
Qed.

(** ** Threshold honest fragments *)
Context (Hagg : agg_correct P) (Hperm : fast_perm P) (Hdeser : forall sg : bls_sig P, bls_deser (bls_ser sg) = Some sg).
Context (Hbls : cc_thr_scheme cc = "bls").

Lemma frags_of_honest i p1 p2 l : Forall (honest_fragment cc i p1 p2) l ->
  exists sfs, Forall2 (λ g f, g_s0 g = sigfrag_string f /\ plain_id (sf_id f) = true /\
                  (g_p0 g = i_entity i /\ g_p1 g = p1 /\ g_p2 g = p2) /\
                  exists pk, cc_bls_pubs cc !! sf_id f = Some pk /\ bls_check pk (i_entity i ++ p1 ++ p2) (sf_sign f) = true) l sfs.
Proof using.
  clear. induction 1 as [|g l (H1 & H2 & H3 & sf & pk & H4 & H5 & H6 & H7) _ [sfs IH]]; [by exists []|].
  exists (sf :: sfs). constructor; [|done]. assert (g_p0 g = i_entity i) as Hp by (by rewrite <- H1). split_and!; auto.
  exists pk. split; [done|]. unfold covered in H7. by rewrite Hp, H2, H3 in H7.
Qed.

Lemma full_accepted s f i p1 p2 g0 r l ts : i_entity i <> "" -> l = (g0 :: r)%list -> Forall (honest_fragment cc i p1 p2) l ->
  cc_thr_aggregate cc (frags_of l) = Some ts -> verify cc (full_of s f g0 l ts) = Accept.
Proof using All.
  intros Hne El Hl Ha. destruct (frags_of_honest i p1 p2 l Hl) as [sfs Hf].
  eapply (honest_full cc cfg l sfs (full_type f) (i_entity i) p1 p2 s); auto.
  - destruct f; cbn; set_solver.
  - unfold generate_full. fold (frags_of (P:=P) l). rewrite Ha, El. cbn [pbind pread run]. rewrite <- El. reflexivity.
Qed.

Lemma not_dup_frag s f g i l : get_id g = i -> obj_kind g = KFrag f -> get_object_list s i f = l ->
  (g_s0 g, g_s1 g) ∉ map (λ g, (g_s0 g, g_s1 g)) l -> is_duplicate s g = false.
Proof using.
  clear. intros Hi Hk Hl Hn. unfold is_duplicate. rewrite Hk, Hi, Hl. apply not_true_is_false. intros Hx.
  apply existsb_exists in Hx as (o & Ho & Hs). apply Hn. apply elem_of_list_fmap. exists o. split; [|by apply elem_of_list_In].
  unfold same_sig in Hs. apply andb_true_iff in Hs as [A B]. apply bool_decide_eq_true in A, B. congruence.
Qed.

Lemma added_black s f g : t_black (added s f g) = t_black s.
Proof using. unfold added. by autorewrite with gst. Qed.
Lemma added_tbl s f g k : get_tbl (added s f g) k = get_tbl s k.
Proof using. unfold added. by autorewrite with gst. Qed.
Lemma added_period s f g : k_period (added s f g) = k_period s.
Proof using. unfold added. by autorewrite with gst. Qed.

(** Fragments before the last one only fill the bucket. *)
Lemma fill_bucket f i p1 p2 l s done_ : GI cfg s -> i_entity i ∉ t_black s ->
  Forall (honest_fragment cc i p1 p2) l -> Forall (λ g, obj_kind g = KFrag f) l ->
  get_object_list s i f = done_ -> distinct_sigs (done_ ++ l) -> length done_ + length l < T ->
  let s' := handle_all cfg l s in
  GI cfg s' /\ t_black s' = t_black s /\ (forall k, get_tbl s' k = get_tbl s k) /\ k_period s' = k_period s /\
  get_object_list s' i f = (done_ ++ l)%list.
Proof using.
  clear -P cfg. revert s done_. induction l as [|g l IH]; intros s dn HI Hb Hh Hk Hd Hds Hlen; cbn [handle_all fold_left].
  { rewrite app_nil_r. by split_and!. }
  apply Forall_cons in Hh as [Hg Hh]. apply Forall_cons in Hk as [Kg Hk]. pose proof Hg as (Gi & _). cbn [length] in Hlen.
  assert (g_p0 g = i_entity i) as Gp by (by rewrite <- Gi).
  assert (is_duplicate s g = false) as Ed.
  { eapply not_dup_frag; eauto. unfold distinct_sigs in Hds. rewrite map_app in Hds. apply NoDup_app in Hds as (_ & Hds & _).
    intros Hin. eapply Hds; [exact Hin|]. by left. }
  assert (run (handle cfg g) s = (add_trace (added s f g) (sends cfg g), [], Done tt)) as Er.
  { unfold handle. rewrite (handle_fragment 2 f) by done. rewrite Ed. unfold in_blacklist. rewrite Gp, bool_decide_eq_false_2 by done.
    cbn zeta. rewrite Gi, Hd. destruct (Nat.ltb_spec (length dn) T); [|lia]. destruct (Nat.eqb_spec (S (length dn)) T); [lia|done]. }
  assert (GI cfg (add_trace (added s f g) (sends cfg g))) as HI'.
  { pose proof (steps_GI cfg) as _. pose proof (safe_run (GI cfg) GR Gtok (λ w, w = NilDeref) (PreOrder0:=w_pre _ _ _ _ _ _ _ (walk_GI cfg))
      (w_tok _ _ _ _ _ _ _ (walk_GI cfg)) (λ _ _, True) (handle cfg g) s HI) as Hs.
    feed specialize Hs; [by eapply s_handle; [apply walk_GI|]|]. rewrite Er in Hs. apply Hs. }
  assert (get_object_list (add_trace (added s f g) (sends cfg g)) i f = (dn ++ [g])%list) as El.
  { unfold get_object_list at 1. autorewrite with gst. fold (get_object_list (added s f g) i f). rewrite <- Gi, added_list, Gi. by rewrite Hd. }
  rewrite Er. cbn [fst].
  destruct (IH (add_trace (added s f g) (sends cfg g)) (dn ++ [g])%list) as (A1 & A2 & A3 & A4 & A5); auto.
  - autorewrite with gst. by rewrite added_black.
  - by rewrite <- app_assoc.
  - rewrite app_length. cbn [length]. lia.
  - unfold handle_all in *. split_and!; auto.
    + rewrite A2. autorewrite with gst. by rewrite added_black.
    + intros k. rewrite A3. autorewrite with gst. by rewrite added_tbl.
    + rewrite A4. autorewrite with gst. by rewrite added_period.
    + rewrite A5. by rewrite <- app_assoc.
Qed.

(** Threshold honest fragments give a verified aggregate. *)
Lemma frags_complete f i p1 p2 l s : GI cfg s -> i_entity i <> "" -> i_entity i ∉ t_black s ->
  get_object_list s i f = [] -> get_tbl s (OFull f) !! mkgid (k_period s) (full_type f) (i_entity i) = None ->
  0 < T -> length l = T -> Forall (honest_fragment cc i p1 p2) l -> Forall (λ g, obj_kind g = KFrag f) l -> distinct_sigs l ->
  let s' := handle_all cfg l s in
  exists full, get_tbl s' (OFull f) !! get_id full = Some full /\ verify cc full = Accept /\
    get_id full = mkgid (k_period s) (full_type f) (i_entity i) /\ g_p1 full = p1 /\ g_p2 full = p2 /\
    g_signers full = map g_signer l /\ ToMonitor (gc_owner cfg) full ∈ t_trace s' /\ EvFull full ∈ t_trace s'.
Proof using All.
  intros HI Hne Hb Hnil Hno HT Hlen Hh Hk Hds.
  destruct (exists_last (l:=l)) as (l0 & g & ->); [intros ->; cbn in Hlen; lia|].
  rewrite app_length in Hlen. cbn [length] in Hlen.
  apply Forall_app in Hh as [Hh0 Hg]. apply Forall_app in Hk as [Hk0 Kg]. inversion Hg as [|? ? Hg' _]; subst. inversion Kg as [|? ? Kg' _]; subst.
  destruct (fill_bucket f i p1 p2 l0 s []) as (A1 & A2 & A3 & A4 & A5); auto.
  { unfold distinct_sigs in *. cbn. rewrite map_app in Hds. by apply NoDup_app in Hds as (? & _). }
  { cbn. lia. }
  cbn zeta. unfold handle_all in *. rewrite fold_left_app. cbn [fold_left]. set (s0 := fold_left _ l0 s) in *. cbn [app] in A5.
  pose proof Hg' as (Gi & Gp1 & Gp2 & _). assert (g_p0 g = i_entity i) as Gp by (by rewrite <- Gi).
  assert (is_duplicate s0 g = false) as Ed.
  { eapply not_dup_frag; eauto. unfold distinct_sigs in Hds. rewrite map_app in Hds. apply NoDup_app in Hds as (_ & Hds & _).
    intros Hin. eapply Hds; [exact Hin|]. by left. }
  unfold handle. rewrite (handle_fragment 2 f) by done. rewrite Ed. unfold in_blacklist. rewrite Gp, A2, bool_decide_eq_false_2 by done.
  cbn zeta. rewrite Gi, A5. destruct (Nat.ltb_spec (length l0) T); [|lia]. destruct (Nat.eqb_spec (S (length l0)) T); [|lia].
  assert (exists ts, cc_thr_aggregate cc (frags_of (l0 ++ [g])) = Some ts) as [ts Hts].
  { unfold cc_thr_aggregate, thr_aggregate, frags_of. rewrite Hbls. cbn [String.eqb Ascii.eqb Bool.eqb]. rewrite map_length, app_length. cbn [length].
    destruct (Nat.ltb_spec (length l0 + 1) T); [lia|]. by eexists. }
  rewrite Hts. set (full := full_of _ _ _ _ _).
  assert (exists r, (l0 ++ [g])%list = hd g l0 :: r) as [r Hr] by (destruct l0; [by exists []|by eexists]).
  assert (honest_fragment cc i p1 p2 (hd g l0)) as (H0i & H01 & H02 & _).
  { destruct l0 as [|x l0]; [done|]. by inversion Hh0. }
  assert (g_p0 (hd g l0) = i_entity i) as H0p by (by rewrite <- H0i).
  assert (verify cc full = Accept) as Hv.
  { eapply (full_accepted _ f i p1 p2 _ r); eauto. by apply Forall_app. }
  assert (obj_kind full = KObj (OFull f)) as Hkf by (unfold obj_kind; cbn; by destruct f).
  assert (get_id full = mkgid (k_period s) (full_type f) (i_entity i)) as Hfi.
  { unfold get_id. cbn. by rewrite A4, H0p. }
  rewrite (handle_aggregate 1 f) by done.
  set (s1 := add_trace (added s0 f g) [EvFull full]).
  assert (get_tbl s1 (OFull f) !! get_id full = None) as Hn1.
  { unfold s1. autorewrite with gst. rewrite added_tbl, A3, Hfi. done. }
  assert (is_duplicate s1 full = false) as -> by (unfold is_duplicate; by rewrite Hkf, Hn1).
  assert (in_blacklist s1 (g_p0 full) = false) as ->.
  { unfold in_blacklist, s1. autorewrite with gst. rewrite added_black, A2. rewrite bool_decide_eq_false_2; [done|]. cbn. by rewrite H0p. }
  rewrite Hn1. cbn [fst snd]. destruct (conv_f_fields (add_trace (stored_full s1 f full) [ToMonitor (gc_owner cfg) full])) as (E1 & _ & _ & E4 & _).
  exists full. autorewrite with gst. rewrite E1, E4. autorewrite with gst. unfold stored_full. rewrite Hv.
  assert (forall x, x ∈ t_trace s1 -> x ∈ t_trace (if decide (f = Acc) then black_add (inserted s1 (OFull f) full) (g_p0 full) else inserted s1 (OFull f) full)) as Htr.
  { intros x Hx. destruct (decide _) as [->|].
    - destruct (black_add_fields (inserted s1 (OFull Acc) full) (g_p0 full)) as (_ & _ & _ & -> & _). unfold inserted. autorewrite with gst. apply elem_of_app. by left.
    - unfold inserted. autorewrite with gst. apply elem_of_app. by left. }
  split_and!; auto.
  - destruct (decide _) as [->|].
    + destruct (black_add_fields (inserted s1 (OFull Acc) full) (g_p0 full)) as (-> & _). unfold inserted. autorewrite with gst. by rewrite get_tbl_set_tbl_eq, lookup_insert.
    + unfold inserted. autorewrite with gst. by rewrite get_tbl_set_tbl_eq, lookup_insert.
  - rewrite !elem_of_app. left. right. by left.
  - rewrite !elem_of_app. left. left. apply Htr. unfold s1. autorewrite with gst. apply elem_of_app. right. by left.
Qed.
End frag.
