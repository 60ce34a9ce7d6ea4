(** What a client knows after any number of interruptions. *)
From Verif Require Import Bytes Json JsonFacts Types Crypto Verify Merkle Bitset Revocation Cert CTngExt Disk SpecDisk DiskFacts Monitor Client SpecClient ClientFacts ClientMore.
From Verif Require Import JsonFile SpecJsonFile JsonFileFacts.
Open Scope string_scope.

Section story.
Context {P : prims} (z : gzip) (c : cconf P) (o : os) (F : cfiles).

Lemma story_life l s d : story z c o F l s d -> life z c o F s d.
Proof.
  induction 1 as [d|l s d flag u s' r _ IH H N|l s d ls lc lp _ IH L1 L2 L3|l s d ls lc lp d' s' _ IH L1 L2 L3 H S].
  - constructor.
  - by eapply life_update.
  - by apply life_save.
  - by eapply life_interrupted.
Qed.

Lemma final_saving d ls lc lp : final d (saving_all o d F ls lc lp) ∈ saving_all o d F ls lc lp.
Proof.
  apply final_in. unfold saving_all. cbv zeta. intros E. apply app_eq_nil in E as [E _]. by apply writing_ne in E.
Qed.

Lemma start_parts d s : client_start o d F = Some s ->
  cl_sth s = load_sth (read_byte o d (f_sth F)) /\ load_crv (read_byte o d (f_crv F)) = Some (cl_crv s).
Proof. rewrite start_cases. destruct (load_crv _) as [m|]; [|done]. by intros [= <-]. Qed.

Lemma start_pom d s : client_start o d F = Some s -> cl_pom s = ∅.
Proof. rewrite start_cases. destruct (load_crv _) as [m|]; [|done]. by intros [= <-]. Qed.

Lemma missing d p : d !! p = None -> read_byte o d p = None.
Proof. intros H. unfold read_byte, read_file. rewrite H. by destruct (os_open o p). Qed.

(** A root that an update of the history vouched for. *)
Definition head_in (l : list (bool * update)) (k r : string) : Prop :=
  exists flag u g x, (flag, u) ∈ l /\ g ∈ u_sths u /\ k = g_p0 g ++ "@" ++ g_period g /\ (flag = true -> verify c g = Accept) /\ head_of g = Some x /\ r = sth_root x.

Definition vector_in (l : list (bool * update)) (ca : string) (v : bitset) : Prop :=
  exists flag u g, (flag, u) ∈ l /\ g ∈ u_revs u /\ g_p0 g = ca /\ v = snd (srh_and_dcrv z g) /\ (flag = true -> verify c g = Accept) /\
    verify_srh c (fst (srh_and_dcrv z g)) v None (g_period g) = Accept.

Lemma head_more a l k r : head_in l k r -> head_in (a :: l) k r.
Proof. intros (flag & u & g & x & I & H). exists flag, u, g, x. split; [by right|done]. Qed.
Lemma vector_more a l k r : vector_in l k r -> vector_in (a :: l) k r.
Proof. intros (flag & u & g & I & H). exists flag, u, g. split; [by right|done]. Qed.

Lemma story_heads l s d : distinct F -> story z c o F l s d ->
  map_Forall (head_in l) (cl_sth s) /\ map_Forall (head_in l) (load_sth (read_byte o d (f_sth F))).
Proof.
  intros D. induction 1 as [d N1 N2|l s d flag u s' r S IH H N|l s d ls lc lp S IH L1 L2 L3|l s d ls lc lp d' s' S IH L1 L2 L3 H K].
  - rewrite missing by done. split; apply map_Forall_empty.
  - destruct IH as [A B]. split.
    + intros k x E. destruct (root_from z c s flag u s' r k x H E) as [M|(g & y & I & J & V & W & R)]; [apply head_more; by apply A|].
      exists flag, u, g, y. split; [by left|done].
    + intros k x E. apply head_more. by apply B.
  - destruct IH as [A B]. split; [done|].
    destruct (files_during o F s d ls lc lp _ (life_vectors z c o F _ _ (story_life _ _ _ S)) D L1 L2 (final_saving d ls lc lp)) as [[-> |[-> | ->]] _];
      [done|apply map_Forall_empty|done].
  - destruct IH as [A B]. destruct (start_parts _ _ K) as [-> _].
    assert (map_Forall (head_in l) (load_sth (read_byte o d' (f_sth F)))); [|done].
    destruct (files_during o F s d ls lc lp _ (life_vectors z c o F _ _ (story_life _ _ _ S)) D L1 L2 H) as [[-> |[-> | ->]] _];
      [done|apply map_Forall_empty|done].
Qed.

Lemma story_vectors l s d : distinct F -> story z c o F l s d ->
  map_Forall (vector_in l) (cl_crv s) /\ forall m, load_crv (read_byte o d (f_crv F)) = Some m -> m ⊆ cl_crv s.
Proof.
  intros D. induction 1 as [d N1 N2|l s d flag u s' r S IH H N|l s d ls lc lp S IH L1 L2 L3|l s d ls lc lp d' s' S IH L1 L2 L3 H K].
  - rewrite missing by done. split; [apply map_Forall_empty|]. intros m [= <-]. apply map_empty_subseteq.
  - destruct IH as [A B]. split.
    + intros k x E. destruct (vector_from z c s flag u s' r k x H E) as [M|(g & I & J & V & W & R)]; [apply vector_more; by apply A|].
      exists flag, u, g. split; [by left|done].
    + intros m E. transitivity (cl_crv s); [by apply B|]. apply map_subseteq_spec. intros k v. by apply (vector_kept z c s flag u s' r).
  - destruct IH as [A B]. split; [done|].
    destruct (files_during o F s d ls lc lp _ (life_vectors z c o F _ _ (story_life _ _ _ S)) D L1 L2 (final_saving d ls lc lp)) as [_ [-> |[-> | ->]]];
      [done|done|]. intros m [= <-]. done.
  - destruct IH as [A B]. destruct (start_parts _ _ K) as [_ E]. rewrite E. split; [|intros m [= <-]; done].
    destruct (files_during o F s d ls lc lp _ (life_vectors z c o F _ _ (story_life _ _ _ S)) D L1 L2 H) as [_ [G|[G|G]]]; rewrite E in G.
    + symmetry in G. apply B in G. intros k v M. apply A. by eapply lookup_weaken.
    + done.
    + injection G as ->. done.
Qed.

(** An interruption changes no vector: it is kept or gone. *)
Lemma interrupted_vectors l s d ls lc lp d' s' : story z c o F l s d -> distinct F -> lists (cl_sth s) ls -> lists (cl_crv s) lc -> lists (cl_pom s) lp ->
  d' ∈ saving_all o d F ls lc lp -> client_start o d' F = Some s' -> cl_crv s' ⊆ cl_crv s.
Proof.
  intros S D L1 L2 L3 H K. destruct (story_vectors _ _ _ D S) as [_ B]. destruct (start_parts _ _ K) as [_ E].
  destruct (files_during o F s d ls lc lp _ (life_vectors z c o F _ _ (story_life _ _ _ S)) D L1 L2 H) as [_ [G|[G|G]]]; rewrite E in G.
  - by apply B.
  - done.
  - by injection G as ->.
Qed.

Lemma revoked_stays l s d ls lc lp d' s' crt v : story z c o F l s d -> distinct F -> lists (cl_sth s) ls -> lists (cl_crv s) lc -> lists (cl_pom s) lp ->
  d' ∈ saving_all o d F ls lc lp -> client_start o d' F = Some s' -> (forall m, h_sha256 P m <> "") ->
  cl_crv s !! c_issuer_cn crt = Some v -> revoked_in v crt -> check_certificate c s' crt <> Accept.
Proof.
  intros S D L1 L2 L3 H K Hh V R A. pose proof (interrupted_vectors _ _ _ _ _ _ _ _ S D L1 L2 L3 H K) as B.
  apply verdict_accept in A as (_ & _ & w & W & N); [|done]. pose proof (lookup_weaken _ _ _ _ W B) as E. rewrite V in E. injection E as <-. done.
Qed.

Lemma root_learned l s d k r : story z c o F l s d -> distinct F -> (forall u, (false, u) ∉ l) -> cl_sth s !! k = Some r ->
  exists u g x, (true, u) ∈ l /\ g ∈ u_sths u /\ k = g_p0 g ++ "@" ++ g_period g /\ verify c g = Accept /\ head_of g = Some x /\ r = sth_root x.
Proof.
  intros S D N E. destruct (story_heads _ _ _ D S) as [A _]. destruct (A _ _ E) as (flag & u & g & x & I & J & K & V & W & R).
  destruct flag; [|by apply N in I]. exists u, g, x. split_and!; auto.
Qed.

Lemma vector_learned l s d ca v : story z c o F l s d -> distinct F -> (forall u, (false, u) ∉ l) -> cl_crv s !! ca = Some v ->
  exists u g, (true, u) ∈ l /\ g ∈ u_revs u /\ g_p0 g = ca /\ v = snd (srh_and_dcrv z g) /\ verify c g = Accept /\
    verify_srh c (fst (srh_and_dcrv z g)) v None (g_period g) = Accept.
Proof.
  intros S D N E. destruct (story_vectors _ _ _ D S) as [A _]. destruct (A _ _ E) as (flag & u & g & I & J & K & V & W & R).
  destruct flag; [|by apply N in I]. exists u, g. split_and!; auto.
Qed.

(** A certificate is accepted only on account of updates. *)
Lemma accepted_learned l s d crt : story z c o F l s d -> distinct F -> (forall u, (false, u) ∉ l) -> (forall m, h_sha256 P m <> "") ->
  check_certificate c s crt = Accept ->
  (exists i u g x p, i ∈ relied_on crt /\ (true, u) ∈ l /\ g ∈ u_sths u /\ verify c g = Accept /\ verify c (li_sth i) = Accept /\
    g_p0 g ++ "@" ++ g_period g = g_p0 (li_sth i) ++ "@" ++ g_period (li_sth i) /\ head_of g = Some x /\ poi_proof (li_poi i) = Some p /\
    verify_proof (h_sha256 P) (c_subject crt) (Some p) (hex_prefix (sth_root x)) = true) /\
  exists u g, (true, u) ∈ l /\ g ∈ u_revs u /\ g_p0 g = c_issuer_cn crt /\ verify c g = Accept /\ ~ revoked_in (snd (srh_and_dcrv z g)) crt.
Proof.
  intros S D N Hh A. apply verdict_accept in A as (_ & (i & I & _ & V & x & p & X & Y & Z & W) & v & E & R); [|done]. split.
  - destruct (root_learned _ _ _ _ _ S D N Y) as (u & g & y & U & G & K & VG & HG & EQ). exists i, u, g, y, p. rewrite <- EQ. by split_and!.
  - destruct (vector_learned _ _ _ _ _ S D N E) as (u & g & U & G & K & -> & VG & _). exists u, g. by split_and!.
Qed.
End story.
