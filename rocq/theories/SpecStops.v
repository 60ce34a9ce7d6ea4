(** When loggers stop, and what gossipers record about a period. *)
From Verif Require Import Bytes Types Crypto Cert Prog Gossiper SpecLogger.
From Verif Require Logger.
From Coq Require Import Lia.
Open Scope string_scope.

(** How many objects there are in a table with one object, or a list of them, for each identifier. *)
Definition objects (m : gmap gid gobj) : nat := length (map_to_list m).
Definition objects_in_lists (m : gmap gid (list gobj)) : nat := length (concat (map snd (map_to_list m))).

(** The record [e] has the number of objects of each kind and of blacklisted entities in state [s], and the convergence times. *)
Definition counts (s : gst) (e : log_entry) : Prop :=
  e_sth_init e = objects (t_sth_init s) /\ e_rev_init e = objects (t_rev_init s) /\ e_acc_init e = objects (t_acc_init s) /\
  e_con_init e = objects (t_con_init s) /\
  e_sth_frag e = objects_in_lists (t_sth_frag s) /\ e_rev_frag e = objects_in_lists (t_rev_frag s) /\ e_acc_frag e = objects_in_lists (t_acc_frag s) /\
  e_sth_full e = objects (t_sth_full s) /\ e_rev_full e = objects (t_rev_full s) /\ e_acc_full e = objects (t_acc_full s) /\
  e_blacklist e = length (elements (t_black s)) /\ e_conv e = t_conv s /\ e_conv_init e = t_conv_init s.

(** The gossiper holds an object or knows a blacklisted entity. *)
Definition holds_something (s : gst) : Prop :=
  (exists k id g, get_tbl s k !! id = Some g) \/ (exists f id l g, get_frags s f !! id = Some l /\ g ∈ l) \/ (exists x, x ∈ t_black s).

(** The number of the period the clock shows. *)
Definition period_is (s : gst) (p : Z) : Prop := atoi (k_period s) = Some p \/ (atoi (k_period s) = None /\ p = 0%Z).

(** The precertificates submitted since the last end of a period. *)
Definition this_period (l : list Logger.levent) : list cert :=
  fold_left (λ acc e, match e with Logger.Submit x => (acc ++ [x])%list | Logger.EndPeriod => [] | _ => acc end) l [].

(** Some submitted precertificate with a key identifier is from a CA that cannot be reached. *)
Definition out_of_reach (up : string -> bool) (l : list cert) : Prop :=
  exists x, x ∈ l /\ c_ski x <> "" /\ up (c_issuer_cn x) = false.

(** All the statements of a period are there: as many as there are loggers and CAs; and all the final objects. *)
Definition all_statements {P : prims} (cfg : gconf P) (s : gst) : Prop :=
  Z.of_nat (objects (t_sth_init s) + objects (t_rev_init s) + objects (t_acc_init s)) = (gc_total_logger cfg + gc_total_ca cfg)%Z.
Definition all_finals {P : prims} (cfg : gconf P) (s : gst) : Prop :=
  Z.of_nat (objects (t_sth_full s) + objects (t_rev_full s) + objects (t_acc_full s) + objects (t_con_init s)) = (gc_total_logger cfg + gc_total_ca cfg)%Z.
