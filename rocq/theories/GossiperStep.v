(** Sequential handlers in closed form. *)
From Verif Require Import Bytes Hex Json Types Crypto Verify Prog Gossiper SpecVerify SpecGossiper ProgFacts GstFacts CodecFacts CryptoFacts VerifyFacts GWalk GossiperInv GossiperSeq GossiperEvidence.
From Coq Require Import Lia.
Open Scope string_scope.

Section step.
Context {P : prims} (cfg : gconf P).
Notation cc := (gc_crypto cfg).
Notation T := (cc_threshold cc).

Definition conv_i (s : gst) : gst := if is_init_convergent cfg s then set_conv_init s (k_second s) else s.
Definition conv_f (s : gst) : gst := if is_convergent cfg s then set_conv s (k_second s) else s.
Definition black_add (s : gst) (e : string) : gst := if in_blacklist s e then s else set_black s ({[e]} ∪ t_black s).

Lemma run_conv_i s : run (note_init_convergence cfg) s = (conv_i s, [], Done tt).
Proof. unfold note_init_convergence, conv_i. cbn. by destruct (is_init_convergent cfg s). Qed.

Lemma run_black e s : run (add_blacklist e) s = (black_add s e, [], Done tt).
Proof. unfold add_blacklist, black_add. cbn. by destruct (in_blacklist s e). Qed.

Lemma run_store g s : verify cc g = Accept -> run (store cfg g) s =
  match obj_kind g with
  | KObj (OInit f) => if is_duplicate s g then (s, [], Done false) else (conv_i (inserted s (OInit f) g), [], Done true)
  | KObj OCon => if is_duplicate s g then (s, [], Done false)
                 else (conv_i (black_add (inserted s OCon g) (g_p0 g)), [], Done true)
  | KFrag f => (add_trace (set_frags s f (<[get_id g := (get_object_list s (get_id g) f ++ [g])%list]> (get_frags s f))) [EvStored g], [], Done true)
  | KObj (OFull f) => (if decide (f = Acc) then black_add (inserted s (OFull f) g) (g_p0 g) else inserted s (OFull f) g, [], Done true)
  | KUnknown => (s, [], Done true)
  end.
Proof.
  intros Hv. unfold store. rewrite Hv. destruct (obj_kind g) as [[f| |f]|f|]; try done.
  - cbn [pbind patomic run]. unfold insert_unless_dup. destruct (is_duplicate s g); cbn [negb]; [done|].
    rewrite run_bind, run_conv_i. done.
  - cbn [pbind patomic run]. unfold insert_unless_dup. destruct (is_duplicate s g); cbn [negb]; [done|].
    rewrite run_bind, run_black, run_bind, run_conv_i. done.
  - cbn [pbind pmodify run]. unfold bool_decide. destruct (decide_rel eq f Acc) as [->|Hf].
    + cbn [pwhen]. rewrite run_bind, run_black. cbn. done.
    + rewrite decide_False by done. done.
Qed.

Lemma run_store_no g s : verify cc g = Reject -> run (store cfg g) s = (s, [], Done false).
Proof. intros Hv. unfold store. by rewrite Hv. Qed.

(** ** Guards that never fire *)
Lemma no_full_count s g f : GI cfg s -> g_type g <> full_type f -> obj_count s (get_id g) (OFull f) = 0.
Proof.
  intros (H1 & _) Hg. unfold obj_count. destruct (get_tbl s (OFull f) !! get_id g) as [o|] eqn:E; [|done].
  apply H1 in E as (_ & Hi & Ht). injection Hi as _ Hi _. cbn in Ht. congruence.
Qed.

Lemma no_frag_count s g f : GI cfg s -> g_type g <> frag_type f -> frag_count s (get_id g) f = 0.
Proof.
  intros (_ & _ & H3 & _) Hg. unfold frag_count, get_object_list, frags_at.
  destruct (get_frags s f !! get_id g) as [l|] eqn:E; [|done]. apply H3 in E as [_ E].
  destruct l as [|o l]; [done|]. destruct (E o) as [Hi Ht]; [by left|]. injection Hi as _ Hi _. congruence.
Qed.

(** ** Blacklisted entities and duplicates *)
Lemma handle_black g s : g_p0 g ∈ t_black s -> run (handle cfg g) s = (s, [], Done tt).
Proof.
  intros Hb. unfold handle. cbn [handle_n]. unfold handle_body. cbn [pbind pread run].
  destruct (is_duplicate s g); [done|]. cbn [pbind pread run]. unfold in_blacklist. by rewrite bool_decide_eq_true_2.
Qed.

Lemma timer_black g s : g_p0 g ∈ t_black s -> run (start_task cfg (SignLater g)) s = (s, [], Done tt).
Proof. intros Hb. cbn. unfold in_blacklist. by rewrite bool_decide_eq_true_2. Qed.

Lemma handle_dup g s : is_duplicate s g = true -> run (handle cfg g) s = (s, [], Done tt).
Proof. intros Hd. unfold handle. cbn [handle_n]. unfold handle_body. cbn [pbind pread run]. by rewrite Hd. Qed.

(** ** The period change *)
Lemma periodic_run s : exists s', run periodic s = (s', [], Done tt) /\
  get_tbl s' OCon = get_tbl s OCon /\ t_black s' = t_black s /\
  (forall k, k <> OCon -> get_tbl s' k = ∅) /\ (forall f, get_frags s' f = ∅) /\ t_payload s' = ∅ /\
  t_trace s' = (t_trace s ++ [EvWiped])%list.
Proof.
  unfold periodic, save, wipe. cbn [pbind patomic pmodify run].
  set (s1 := if entry_nonzero _ then _ else s).
  assert (get_tbl s1 OCon = get_tbl s OCon) as E1 by (unfold s1; destruct (entry_nonzero _); by autorewrite with gst).
  assert (t_black s1 = t_black s) as E2 by (unfold s1; destruct (entry_nonzero _); by autorewrite with gst).
  assert (t_trace s1 = t_trace s) as E3 by (unfold s1; destruct (entry_nonzero _); by autorewrite with gst).
  destruct (replace_storage s1) as [s2 con] eqn:E.
  assert (s2 = (replace_storage s1).1) as -> by (by rewrite E).
  assert (con = get_tbl s1 OCon) as -> by (rewrite <- replace_con; by rewrite E).
  eexists. split; [reflexivity|]. autorewrite with gst. split_and!.
  - by rewrite get_tbl_set_tbl_eq.
  - done.
  - intros k Hk. autorewrite with gst. rewrite get_tbl_set_tbl, decide_False by done. by autorewrite with gst.
  - intros f. by autorewrite with gst.
  - done.
  - by rewrite E3.
Qed.

(** ** A new statement *)
Lemma init_neq_full f f' : init_type f <> full_type f'.
Proof. by destruct f, f'. Qed.
Lemma init_neq_frag f f' : init_type f <> frag_type f'.
Proof. by destruct f, f'. Qed.

Definition published (s : gst) (g : gobj) : gst := add_trace (add_trace s (sends cfg g)) [ToMonitor (gc_owner cfg) g].

Lemma handle_stmt n f g s : GI cfg s -> 0 < T -> f <> Acc -> obj_kind g = KObj (OInit f) ->
  run (handle_n cfg (S n) g) s =
  if is_duplicate s g then (s, [], Done tt)
  else if in_blacklist s (g_p0 g) then (s, [], Done tt)
  else if is_malicious s g then run (handle_n cfg n (generate_con (k_period s, k_stamp s) (get_object s (get_id g) (OInit f)) g)) s
  else match verify cc g with
       | Accept => (published (conv_i (inserted s (OInit f) g)) g, [SignLater g], Done tt)
       | Reject => (s, [], Done tt)
       | Panics => (s, [], Crashed NilDeref)
       end.
Proof.
  intros HI HT Hf Hk. cbn [handle_n]. unfold handle_body. cbn [pbind pread run].
  destruct (is_duplicate s g) eqn:Ed; [done|]. cbn [pbind pread run]. destruct (in_blacklist s (g_p0 g)); [done|].
  assert (run (handle_init cfg (handle_n cfg n) f g) s =
    if is_malicious s g then run (handle_n cfg n (generate_con (k_period s, k_stamp s) (get_object s (get_id g) (OInit f)) g)) s
    else match verify cc g with
       | Accept => (published (conv_i (inserted s (OInit f) g)) g, [SignLater g], Done tt)
       | Reject => (s, [], Done tt)
       | Panics => (s, [], Crashed NilDeref)
       end) as Hr.
  { pose proof Hk as Ht. apply obj_kind_obj in Ht. cbn in Ht.
    unfold handle_init. cbn [pbind pread run]. rewrite no_full_count by (auto; rewrite Ht; apply init_neq_full).
    cbn [Nat.ltb Nat.leb pbind pread run]. rewrite no_frag_count by (auto; rewrite Ht; apply init_neq_frag).
    destruct (Nat.leb_spec T 0); [lia|]. cbn [pbind pread run].
    destruct (is_malicious s g); cbn [pbind pread run]; [done|].
    destruct (verify cc g) eqn:Hv.
    - rewrite run_bind, run_store by done. rewrite Hk, Ed. cbn [negb]. reflexivity.
    - rewrite run_bind, run_store_no by done. reflexivity.
    - unfold store. rewrite Hv. reflexivity. }
  destruct f; [| |done]; rewrite Hk; exact Hr.
Qed.

Lemma handle_conflict n g s : obj_kind g = KObj OCon ->
  run (handle_n cfg (S n) g) s =
  if is_duplicate s g then (s, [], Done tt)
  else if in_blacklist s (g_p0 g) then (s, [], Done tt)
  else match get_tbl s OCon !! get_id g with
  | Some _ => (s, [], Done tt)
  | None => match verify cc g with
       | Accept => (published (conv_i (black_add (inserted s OCon g) (g_p0 g))) g, [], Done tt)
       | Reject => (s, [], Done tt)
       | Panics => (s, [], Crashed NilDeref)
       end
  end.
Proof.
  intros Hk. cbn [handle_n]. unfold handle_body. cbn [pbind pread run].
  destruct (is_duplicate s g) eqn:Ed; [done|]. cbn [pbind pread run]. destruct (in_blacklist s (g_p0 g)); [done|].
  rewrite Hk. unfold handle_con. cbn [pbind pread run]. unfold obj_count. destruct (get_tbl s OCon !! get_id g); [done|].
  cbn [Nat.eqb]. destruct (verify cc g) eqn:Hv.
  - rewrite run_bind, run_store by done. rewrite Hk, Ed. cbn [negb]. reflexivity.
  - rewrite run_bind, run_store_no by done. reflexivity.
  - unfold store. rewrite Hv. reflexivity.
Qed.

Lemma conv_i_fields s : get_tbl (conv_i s) = get_tbl s /\ get_frags (conv_i s) = get_frags s /\ t_black (conv_i s) = t_black s /\
  t_trace (conv_i s) = t_trace s /\ t_payload (conv_i s) = t_payload s.
Proof. unfold conv_i. destruct (is_init_convergent cfg s); destruct s; done. Qed.

Lemma black_add_fields s e : get_tbl (black_add s e) = get_tbl s /\ get_frags (black_add s e) = get_frags s /\
  t_black (black_add s e) = {[e]} ∪ t_black s /\ t_trace (black_add s e) = t_trace s /\ t_payload (black_add s e) = t_payload s.
Proof.
  unfold black_add, in_blacklist. case_bool_decide as Hb; [|by destruct s].
  split_and!; auto. apply leibniz_equiv. set_solver.
Qed.
End step.
