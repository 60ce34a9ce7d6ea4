(** Example networks and counterexamples. *)
From Verif Require Import Bytes Hex Json Types Crypto Verify Prog Gossiper Network SpecCodec SpecVerify SpecGossiper SpecNetwork Toy ToyFacts ProgFacts GossiperSeq RefuteGossiper NetworkNode.
Open Scope string_scope.

(** Three gossipers with threshold [T], REV threshold [lim] and optimisation mode [opt]. *)
Definition net_conf (T : nat) (lim : Z) (opt : bool) (self : string) (sk : Z) : gconf toy :=
  mkgconf (mkcconf toy T 3 4 "rsa" "bls" self toy_rsa "" toy_bls sk)
    (List.filter (λ u, negb (String.eqb u self)) ["g1"; "g2"; "g3"]) "m1" 2 1 lim opt.
Definition three (T : nat) (lim : Z) (opt : bool) : gmap string (gconf toy) :=
  {[ "g1" := net_conf T lim opt "g1" 1; "g2" := net_conf T lim opt "g2" 10; "g3" := net_conf T lim opt "g3" 100 ]}.

Lemma three_cases T lim opt u c : three T lim opt !! u = Some c -> 
  (u = "g1" /\ c = net_conf T lim opt "g1" 1) \/ (u = "g2" /\ c = net_conf T lim opt "g2" 10) \/ (u = "g3" /\ c = net_conf T lim opt "g3" 100).
Proof.
  unfold three. rewrite !lookup_insert_Some, lookup_singleton_Some. intros [[<- <-]|[_ [[<- <-]|[_ [<- <-]]]]]; auto.
Qed.

Lemma three_known T lim opt v : is_Some (three T lim opt !! v) <-> v ∈ ["g1"; "g2"; "g3"].
Proof.
  split.
  - intros [c Hc]. apply three_cases in Hc as [[-> _]|[[-> _]|[-> _]]]; rewrite !elem_of_cons; auto.
  - rewrite !elem_of_cons, elem_of_nil. intros [->|[->|[->|[]]]]; eexists; reflexivity.
Qed.

Lemma three_honest T lim opt : 0 < T <= 3 -> honest_network (three T lim opt) T.
Proof.
  intros HT. split.
  - intros u c Hc. apply three_cases in Hc as [[-> ->]|[[-> ->]|[-> ->]]]; split; reflexivity.
  - intros u c Hc. apply three_cases in Hc as [[-> ->]|[[-> ->]|[-> ->]]]; reflexivity.
  - intros u c Hc. apply three_cases in Hc as [[-> ->]|[[-> ->]|[-> ->]]]; reflexivity.
  - intros u c Hc v. rewrite three_known. apply three_cases in Hc as [[-> ->]|[[-> ->]|[-> ->]]]; cbn [net_conf gc_neighbours List.filter String.eqb Ascii.eqb Bool.eqb negb]; rewrite !elem_of_cons, elem_of_nil; naive_solver.
  - intros u c v d Hc Hd. assert (cc_bls_pubs (gc_crypto c) = toy_bls) as -> by (apply three_cases in Hc as [[-> ->]|[[-> ->]|[-> ->]]]; reflexivity).
    apply three_cases in Hd as [[-> ->]|[[-> ->]|[-> ->]]]; eexists; (split; [reflexivity|]); intros m; apply Z.eqb_refl.
  - unfold three. rewrite !map_size_insert_None, map_size_singleton by reflexivity. exact HT.
Qed.

Definition plain3 := three 2 10000 false.
Definition two_statements : list gobj := [sth_a; rev_a].

Lemma plain3_valid : valid_statements plain3 "07" two_statements.
Proof.
  split.
  - intros g Hg. unfold two_statements in Hg. rewrite !elem_of_cons, elem_of_nil in Hg. destruct Hg as [->|[->|[]]]; repeat split; auto; [by left|by right].
  - intros g u c Hg Hc. unfold two_statements in Hg. rewrite !elem_of_cons, elem_of_nil in Hg.
    apply three_cases in Hc. destruct Hg as [->|[->|[]]], Hc as [[-> ->]|[[-> ->]|[-> ->]]]; vm_compute; reflexivity.
  - intros g h Hg Hh. unfold two_statements in Hg, Hh. rewrite !elem_of_cons, elem_of_nil in Hg, Hh. 
    destruct Hg as [->|[->|[]]], Hh as [->|[->|[]]]; done.
  - intros g u c v d Hg Ht Hc Hd. unfold two_statements in Hg. rewrite !elem_of_cons, elem_of_nil in Hg. destruct Hg as [->|[->|[]]]; [done|].
    apply three_cases in Hc, Hd. destruct Hc as [[-> ->]|[[-> ->]|[-> ->]]], Hd as [[-> ->]|[[-> ->]|[-> ->]]];
      (split; [reflexivity|split; vm_compute; discriminate]).
Qed.

(** A run: deliver all posts, then fire one timer each, until [n] rounds
    are over. *)
Fixpoint drain (cfgs : gmap string (gconf toy)) (n : nat) (N : net) : list nevent :=
  match n with
  | 0 => []
  | S n =>
      let e := match nt_flight N with
               | _ :: _ => Some (NDeliver 0)
               | [] => match List.filter (λ uy : string * gsys, negb (is_nil (s_tasks uy.2))) (map_to_list (nt_nodes N)) with
                       | (u, _) :: _ => Some (NFire u 0)
                       | [] => None
                       end
               end in
      match e with Some e => e :: drain cfgs n (net_step cfgs N e) | None => [] end
  end.

Definition is_quiet (N : net) : bool :=
  is_nil (nt_flight N) && forallb (λ uy : string * gsys, is_nil (s_tasks uy.2)) (map_to_list (nt_nodes N)).

Lemma is_quiet_sound N : is_quiet N = true -> quiescent N.
Proof.
  unfold is_quiet. rewrite andb_true_iff, forallb_forall. intros [H1 H2]. split; [by destruct (nt_flight N)|].
  intros u y Hy. specialize (H2 (u, y)). cbn in H2. destruct (s_tasks y); [done|]. exfalso.
  assert (false = true); [|done]. apply H2. apply elem_of_list_In. by apply elem_of_map_to_list.
Qed.

Lemma drain_allowed cfgs p Gs n N : Forall (allowed p Gs) (drain cfgs n N).
Proof.
  revert N. induction n as [|n IH]; intros N; [constructor|]. cbn [drain]. cbn zeta. destruct (nt_flight N); [|constructor; [exact I|apply IH]].
  destruct (List.filter _ _) as [|[u ?] ?]; [constructor|]. constructor; [exact I|apply IH].
Qed.

(** [l] and then everything that is left. *)
Definition full_run (cfgs : gmap string (gconf toy)) (l : list nevent) : list nevent :=
  (l ++ drain cfgs 100 (net_run cfgs (net_init cfgs "07" "s" "t") l))%list.

(* ---------------------------------------------------------------- *)
(** * Revocation statements *)

(** A statement of a CA that all gossipers of the network accept. *)
Definition rev_for (cfgs : gmap string (gconf toy)) (g : gobj) : Prop :=
  g_type g = REV_INIT /\ g_period g = "07" /\ g_signer g <> "" /\ forall u c, cfgs !! u = Some c -> verify (gc_crypto c) g = Accept.

Lemma rev_a_for T lim opt : rev_for (three T lim opt) rev_a.
Proof.
  split; [reflexivity|]. split; [reflexivity|]. split; [discriminate|]. intros u c Hc.
  apply three_cases in Hc as [[-> ->]|[[-> ->]|[-> ->]]]; vm_compute; reflexivity.
Qed.

Definition rev_fulls (N : net) : list nat := map (λ uy : string * gsys, size (t_rev_full (s_st uy.2))) (map_to_list (nt_nodes N)).
Lemma rev_fulls_zero N : forallb (Nat.eqb 0) (rev_fulls N) = true -> forall u y, nt_nodes N !! u = Some y -> t_rev_full (s_st y) = ∅.
Proof.
  intros H u y Hy. rewrite forallb_forall in H. apply map_size_empty_inv, eq_sym, Nat.eqb_eq, H. apply in_map_iff. exists (u, y). split; [reflexivity|].
  apply elem_of_list_In. by apply elem_of_map_to_list.
Qed.

(** Optimisation mode on, statement below the limit: nobody gets an aggregate. *)
Definition opt3 := three 2 10000 true.
Definition run_small : list nevent := full_run opt3 [NHand "g1" rev_a].

Lemma run_small_ok : is_quiet (net_run opt3 (net_init opt3 "07" "s" "t") run_small) &&
  forallb (Nat.eqb 0) (rev_fulls (net_run opt3 (net_init opt3 "07" "s" "t") run_small)) = true.
Proof. vm_compute. reflexivity. Qed.

Lemma small_rev_refuted : exists (P : prims) (cfgs : gmap string (gconf P)) T p sec st g l,
  honest_network cfgs T /\ T < size cfgs /\ statement g /\ g_type g = REV_INIT /\ g_period g = p /\
  (forall u c, cfgs !! u = Some c -> verify (gc_crypto c) g = Accept /\ gc_opt_mode c = true /\ 
     (Z.of_nat (len (gobj_marshal g)) <= gc_opt_threshold c)%Z) /\
  Forall (allowed p [g]) l /\ (exists u, is_Some (cfgs !! u) /\ NHand u g ∈ l) /\
  quiescent (net_run cfgs (net_init cfgs p sec st) l) /\
  forall u y, nt_nodes (net_run cfgs (net_init cfgs p sec st) l) !! u = Some y -> t_rev_full (s_st y) = ∅.
Proof.
  pose proof run_small_ok as Hrun. apply andb_true_iff in Hrun as [Hq Hz].
  exists toy, opt3, 2, "07", "s", "t", rev_a, run_small. split; [apply three_honest; lia|].
  split; [unfold opt3, three; rewrite !map_size_insert_None, map_size_singleton by reflexivity; lia|].
  split; [by right|]. split; [reflexivity|]. split; [reflexivity|]. split.
  { intros u c Hc. split; [exact (proj2 (proj2 (proj2 (rev_a_for 2 10000 true))) u c Hc)|]. apply three_cases in Hc as [[-> ->]|[[-> ->]|[-> ->]]]; (split; [reflexivity|vm_compute; discriminate]). }
  split. { unfold run_small, full_run. apply Forall_app. split; [|apply drain_allowed]. constructor; [by left|constructor]. }
  split. { exists "g1". split; [apply three_known; by left|]. unfold run_small, full_run. by left. }
  split; [by apply is_quiet_sound|]. by apply rev_fulls_zero.
Qed.

(** Statement above the limit: the fragments of g1 overtake the statement,
    and two of the three gossipers never get an aggregate. *)
Definition large3 := three 3 10 true.
Definition run_large : list nevent := full_run large3 [NHand "g1" rev_a; NFire "g1" 0; NDeliver 2; NDeliver 2].
Definition lacks (N : net) (u : string) : bool :=
  match nt_nodes N !! u with Some y => Nat.eqb (size (t_rev_init (s_st y))) 1 && Nat.eqb (size (t_rev_full (s_st y))) 0 | None => false end.
Lemma run_large_ok : is_quiet (net_run large3 (net_init large3 "07" "s" "t") run_large) &&
  lacks (net_run large3 (net_init large3 "07" "s" "t") run_large) "g2" = true.
Proof. vm_compute. reflexivity. Qed.

Lemma large_rev_refuted : exists (P : prims) (cfgs : gmap string (gconf P)) T p sec st g l,
  honest_network cfgs T /\ statement g /\ g_type g = REV_INIT /\ g_period g = p /\
  (forall u c, cfgs !! u = Some c -> verify (gc_crypto c) g = Accept /\ gc_opt_mode c = true /\ 
     (gc_opt_threshold c < Z.of_nat (len (gobj_marshal g)))%Z) /\
  Forall (allowed p [g]) l /\ (exists u, is_Some (cfgs !! u) /\ NHand u g ∈ l) /\
  quiescent (net_run cfgs (net_init cfgs p sec st) l) /\
  exists u y, nt_nodes (net_run cfgs (net_init cfgs p sec st) l) !! u = Some y /\ t_rev_full (s_st y) = ∅.
Proof.
  pose proof run_large_ok as Hrun. apply andb_true_iff in Hrun as [Hq Hz].
  exists toy, large3, 3, "07", "s", "t", rev_a, run_large. split; [apply three_honest; lia|].
  split; [by right|]. split; [reflexivity|]. split; [reflexivity|]. split.
  { intros u c Hc. split; [exact (proj2 (proj2 (proj2 (rev_a_for 3 10 true))) u c Hc)|]. apply three_cases in Hc as [[-> ->]|[[-> ->]|[-> ->]]]; (split; [reflexivity|vm_compute; reflexivity]). }
  split. { unfold run_large, full_run. apply Forall_app. split; [|apply drain_allowed]. repeat constructor. }
  split. { exists "g1". split; [apply three_known; by left|]. unfold run_large, full_run. by left. }
  split; [by apply is_quiet_sound|]. unfold lacks in Hz. exists "g2".
  destruct (nt_nodes _ !! "g2") as [y|]; [|discriminate]. exists y. split; [reflexivity|]. apply andb_true_iff in Hz as [_ Hz].
  apply map_size_empty_inv. by apply Nat.eqb_eq.
Qed.

(* ---------------------------------------------------------------- *)
(** * Two copies of one fragment race *)

Inductive req54 := Head | Frag2.
Definition rq54 (r : req54) : gprog unit := object_handler cfg1 0 (match r with Head => sth_a | Frag2 => frag_g2 end).
Definition race54 : list (choice (Req:=req54)) :=
  (Spawn Head :: repeat (Go 0) 11 ++ Spawn Frag2 :: Spawn Frag2 :: repeat (Go 0) 2 ++ repeat (Go 1) 2 ++ repeat (Go 0) 18)%list.
Definition deliv54 (g : gobj) : Prop := g = frag_g2 \/ g = sth_a.
Lemma deliv54_ok g : deliv54 g -> verify (gc_crypto cfg1) g = Accept.
Proof. intros [-> | ->]; vm_compute; reflexivity. Qed.
Lemma rq54_ok r : no_wipe cfg1 deliv54 (rq54 r).
Proof. destruct r; apply (nw_obj cfg1 deliv54 0); [by right|by left]. Qed.

Definition full54 (y : gpool) : option gobj := t_sth_full (p_st y) !! mkgid "07" STH_FULL log1.
Definition test54 (y : gpool) : bool :=
  match full54 y with
  | Some full => bool_decide (g_signers full = ["g2"; "g2"]) && bool_decide (verify (gc_crypto cfg1) full = Accept) && is_nil (p_threads y)
  | None => false
  end.
Lemma race54_ok : (match sched (start_task cfg1) rq54 start1 race54 with Some y => test54 y | None => false end) = true.
Proof. vm_compute. reflexivity. Qed.

Lemma one_signer_refuted : exists (P : prims) (cfg : gconf P) (Dl : gobj -> Prop) a b d c i full,
  (forall g, Dl g -> verify (gc_crypto cfg) g = Accept) /\
  psteps (start_task cfg) (no_wipe cfg Dl) clock_step (init_pool a b d) c /\
  t_sth_full (p_st c) !! i = Some full /\ verify (gc_crypto cfg) full = Accept /\ 2 <= cc_threshold (gc_crypto cfg) /\
  exists u, forall v, v ∈ g_signers full -> v = u.
Proof.
  exists toy, cfg1, deliv54, "07", "s", "t".
  destruct (sched_ex cfg1 rq54 (no_wipe cfg1 deliv54) start1 race54 test54 rq54_ok race54_ok) as (y & H1 & H2).
  unfold test54 in H2. destruct (full54 y) as [full|] eqn:Ef; [|discriminate]. apply andb_true_iff in H2 as [H2 _]. apply andb_true_iff in H2 as [H2 H3].
  apply bool_decide_eq_true in H2, H3.
  exists y, (mkgid "07" STH_FULL log1), full. split; [exact deliv54_ok|]. split; [exact H1|]. split; [exact Ef|]. split; [exact H3|].
  split; [unfold cfg1; cbn; lia|]. exists "g2". rewrite H2. intros v Hv. rewrite !elem_of_cons, elem_of_nil in Hv. tauto.
Qed.

(* ---------------------------------------------------------------- *)
(** * A run of an honest network *)

Lemma plain3_ok : honest_network plain3 2 /\ valid_statements plain3 "07" [sth_a; rev_a].
Proof. split; [apply three_honest; lia|exact plain3_valid]. Qed.

Definition run_plain : list nevent := full_run plain3 [NHand "g1" sth_a; NHand "g2" rev_a].
Lemma run_plain_facts : Forall (allowed "07" [sth_a; rev_a]) run_plain /\ quiescent (net_run plain3 (net_init plain3 "07" "s" "t") run_plain) /\
  NHand "g1" sth_a ∈ run_plain /\ NHand "g2" rev_a ∈ run_plain /\ effective_steps plain3 (net_init plain3 "07" "s" "t") run_plain = 42.
Proof.
  split. { unfold run_plain, full_run. apply Forall_app. split; [|apply drain_allowed]. constructor; [by left|constructor; [by right; left|constructor]]. }
  split; [apply is_quiet_sound; vm_compute; reflexivity|]. split; [by left|]. split; [by right; left|]. vm_compute. reflexivity.
Qed.

Lemma plain3_neighbours u c : plain3 !! u = Some c -> NoDup (gc_neighbours c).
Proof. intros Hc. apply three_cases in Hc as [[-> ->]|[[-> ->]|[-> ->]]]; apply (bool_decide_unpack _); reflexivity. Qed.
