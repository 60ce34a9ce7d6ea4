(** What is said about loggers. *)
From Verif Require Import Bytes Types Crypto Merkle Cert CertPool CTngExt Clock Logger SpecCert.
Open Scope string_scope.

(** A history in which the process survives. *)
Inductive lives {P : prims} (c : lconf P) (up : string -> bool) : lst -> list levent -> lst -> list lout -> Prop :=
| lives_nil s : lives c up s [] s []
| lives_cons s e s1 o1 l s2 o2 : logger_step c up s e = (s1, o1, true) -> lives c up s1 l s2 o2 ->
    lives c up s (e :: l) s2 (o1 ++ o2).

(** Requests received since the last period change. *)
Definition asked (l : list levent) : Z :=
  fold_left (λ n e, match e with Ask _ => n + 1 | EndPeriod => 0 | _ => n end)%Z l 0%Z.

(** Periods completed in which there was at least one request. *)
Definition active_periods (l : list levent) : Z :=
  snd (fold_left (λ '(n, a) e, match e with
                               | Ask _ => (n + 1, a)
                               | EndPeriod => (0, if 0 <? n then a + 1 else a)
                               | _ => (n, a)
                               end)%Z l (0%Z, 0%Z)).

(** The configured behaviour, for the [n]-th request of a period after
    [a] active periods: answer honestly, show the other tree, or say nothing. *)
Inductive behaviour := Honest | Equivocate | Refuse.
Definition every (k n : Z) : Prop := exists q, n = (q * k)%Z.
Inductive configured (ty k a n : Z) : behaviour -> Prop :=
| cfg_normal : ty = 0%Z -> configured ty k a n Honest
| cfg_split : ty = 1%Z \/ ty = 4%Z -> every k n -> a = 1%Z -> configured ty k a n Equivocate
| cfg_split_ok : ty = 1%Z \/ ty = 4%Z -> ~ (every k n /\ a = 1%Z) -> configured ty k a n Honest
| cfg_never : ty = 2%Z -> configured ty k a n Refuse
| cfg_some : ty = 3%Z -> every k n \/ a = 1%Z -> configured ty k a n Refuse
| cfg_some_ok : ty = 3%Z -> ~ (every k n \/ a = 1%Z) -> configured ty k a n Honest
| cfg_second : ty = 5%Z -> a = 1%Z -> configured ty k a n Refuse
| cfg_second_ok : ty = 5%Z -> a <> 1%Z -> configured ty k a n Honest
| cfg_some2 : ty = 6%Z -> every k n -> a = 1%Z -> configured ty k a n Refuse
| cfg_some2_ok : ty = 6%Z -> ~ (every k n /\ a = 1%Z) -> configured ty k a n Honest.

Definition shown (s : lst) (m : nat) (b : behaviour) : reply :=
  match b with
  | Honest => Answer (obj_at (l_sth s) (pad2 m))
  | Equivocate => Answer (obj_at (l_fake s) (pad2 m))
  | Refuse => Silent
  end.

(** No tree for minute [m] is published in the history. *)
Definition no_publish_for (m : nat) (l : list levent) : Prop :=
  forall t t1 t2, Publish t t1 t2 ∈ l -> S (n_minute t) <> m.

(** The state after submitting precertificates to a logger with an empty pool. *)
Definition submit_all (s : lst) (l : list cert) : lst := fold_left receive_precert l s.

(** The minute after [m]. *)
Definition next_minute (m : nat) : nat := if Nat.eqb m 59 then 0 else S m.

(** The precertificates submitted in a history, in order. *)
Definition submitted (l : list levent) : list cert :=
  concat (map (λ e, match e with Submit x => [x] | _ => [] end) l).

(** Some tree published in the history has the subject of [x] as a leaf. *)
Definition logged {P : prims} (c : lconf P) (up : string -> bool) (s : lst) (l : list levent) (x : cert) : Prop :=
  exists l1 t t1 t2 l2 s1 o1, l = (l1 ++ Publish t t1 t2 :: l2)%list /\ lives c up s l1 s1 o1 /\
    c_subject x ∈ map c_subject (get_certs (l_pool s1)).

(** No two certificates of the list have the same key identifier, apart from those that have none. *)
Definition ski_unique (l : list cert) : Prop :=
  forall i j x y, l !! i = Some x -> l !! j = Some y -> c_ski x = c_ski y -> c_ski x <> "" -> i = j.
