(** Projections of the gossiper state after each update. *)
From Verif Require Import Bytes Types Crypto Verify Prog Gossiper.

Lemma t_payload_set_tbl s (k : okind) (m : otbl) : t_payload (set_tbl s k m) = t_payload s.
Proof. destruct s; destruct k as [[]| |[]]; reflexivity. Qed.
Lemma t_black_set_tbl s (k : okind) (m : otbl) : t_black (set_tbl s k m) = t_black s.
Proof. destruct s; destruct k as [[]| |[]]; reflexivity. Qed.
Lemma t_log_set_tbl s (k : okind) (m : otbl) : t_log (set_tbl s k m) = t_log s.
Proof. destruct s; destruct k as [[]| |[]]; reflexivity. Qed.
Lemma t_conv_set_tbl s (k : okind) (m : otbl) : t_conv (set_tbl s k m) = t_conv s.
Proof. destruct s; destruct k as [[]| |[]]; reflexivity. Qed.
Lemma t_conv_init_set_tbl s (k : okind) (m : otbl) : t_conv_init (set_tbl s k m) = t_conv_init s.
Proof. destruct s; destruct k as [[]| |[]]; reflexivity. Qed.
Lemma k_period_set_tbl s (k : okind) (m : otbl) : k_period (set_tbl s k m) = k_period s.
Proof. destruct s; destruct k as [[]| |[]]; reflexivity. Qed.
Lemma k_second_set_tbl s (k : okind) (m : otbl) : k_second (set_tbl s k m) = k_second s.
Proof. destruct s; destruct k as [[]| |[]]; reflexivity. Qed.
Lemma k_stamp_set_tbl s (k : okind) (m : otbl) : k_stamp (set_tbl s k m) = k_stamp s.
Proof. destruct s; destruct k as [[]| |[]]; reflexivity. Qed.
Lemma t_trace_set_tbl s (k : okind) (m : otbl) : t_trace (set_tbl s k m) = t_trace s.
Proof. destruct s; destruct k as [[]| |[]]; reflexivity. Qed.
Lemma get_tbl_set_tbl s (k : okind) (m : otbl) k' : get_tbl (set_tbl s k m) k' = if decide (k = k') then m else get_tbl s k'.
Proof. destruct s, k as [[]| |[]], k' as [[]| |[]]; reflexivity. Qed.
Lemma get_tbl_set_tbl_eq s k m : get_tbl (set_tbl s k m) k = m.
Proof. rewrite get_tbl_set_tbl. by rewrite decide_True. Qed.
Lemma get_frags_set_tbl s (k : okind) (m : otbl) f' : get_frags (set_tbl s k m) f' = get_frags s f'.
Proof. destruct s, f'; destruct k as [[]| |[]]; reflexivity. Qed.
Lemma t_payload_set_frags s (f : fam) (m : ftbl) : t_payload (set_frags s f m) = t_payload s.
Proof. destruct s; destruct f; reflexivity. Qed.
Lemma t_black_set_frags s (f : fam) (m : ftbl) : t_black (set_frags s f m) = t_black s.
Proof. destruct s; destruct f; reflexivity. Qed.
Lemma t_log_set_frags s (f : fam) (m : ftbl) : t_log (set_frags s f m) = t_log s.
Proof. destruct s; destruct f; reflexivity. Qed.
Lemma t_conv_set_frags s (f : fam) (m : ftbl) : t_conv (set_frags s f m) = t_conv s.
Proof. destruct s; destruct f; reflexivity. Qed.
Lemma t_conv_init_set_frags s (f : fam) (m : ftbl) : t_conv_init (set_frags s f m) = t_conv_init s.
Proof. destruct s; destruct f; reflexivity. Qed.
Lemma k_period_set_frags s (f : fam) (m : ftbl) : k_period (set_frags s f m) = k_period s.
Proof. destruct s; destruct f; reflexivity. Qed.
Lemma k_second_set_frags s (f : fam) (m : ftbl) : k_second (set_frags s f m) = k_second s.
Proof. destruct s; destruct f; reflexivity. Qed.
Lemma k_stamp_set_frags s (f : fam) (m : ftbl) : k_stamp (set_frags s f m) = k_stamp s.
Proof. destruct s; destruct f; reflexivity. Qed.
Lemma t_trace_set_frags s (f : fam) (m : ftbl) : t_trace (set_frags s f m) = t_trace s.
Proof. destruct s; destruct f; reflexivity. Qed.
Lemma get_tbl_set_frags s (f : fam) (m : ftbl) k' : get_tbl (set_frags s f m) k' = get_tbl s k'.
Proof. destruct s, k' as [[]| |[]]; destruct f; reflexivity. Qed.
Lemma get_frags_set_frags s (f : fam) (m : ftbl) f' : get_frags (set_frags s f m) f' = if decide (f = f') then m else get_frags s f'.
Proof. destruct s, f, f'; reflexivity. Qed.
Lemma t_payload_set_payload s (m : otbl) : t_payload (set_payload s m) = m.
Proof. destruct s; reflexivity. Qed.
Lemma t_black_set_payload s (m : otbl) : t_black (set_payload s m) = t_black s.
Proof. destruct s; reflexivity. Qed.
Lemma t_log_set_payload s (m : otbl) : t_log (set_payload s m) = t_log s.
Proof. destruct s; reflexivity. Qed.
Lemma t_conv_set_payload s (m : otbl) : t_conv (set_payload s m) = t_conv s.
Proof. destruct s; reflexivity. Qed.
Lemma t_conv_init_set_payload s (m : otbl) : t_conv_init (set_payload s m) = t_conv_init s.
Proof. destruct s; reflexivity. Qed.
Lemma k_period_set_payload s (m : otbl) : k_period (set_payload s m) = k_period s.
Proof. destruct s; reflexivity. Qed.
Lemma k_second_set_payload s (m : otbl) : k_second (set_payload s m) = k_second s.
Proof. destruct s; reflexivity. Qed.
Lemma k_stamp_set_payload s (m : otbl) : k_stamp (set_payload s m) = k_stamp s.
Proof. destruct s; reflexivity. Qed.
Lemma t_trace_set_payload s (m : otbl) : t_trace (set_payload s m) = t_trace s.
Proof. destruct s; reflexivity. Qed.
Lemma get_tbl_set_payload s (m : otbl) k' : get_tbl (set_payload s m) k' = get_tbl s k'.
Proof. destruct s, k' as [[]| |[]]; reflexivity. Qed.
Lemma get_frags_set_payload s (m : otbl) f' : get_frags (set_payload s m) f' = get_frags s f'.
Proof. destruct s, f'; reflexivity. Qed.
Lemma t_payload_set_black s (x : gset string) : t_payload (set_black s x) = t_payload s.
Proof. destruct s; reflexivity. Qed.
Lemma t_black_set_black s (x : gset string) : t_black (set_black s x) = x.
Proof. destruct s; reflexivity. Qed.
Lemma t_log_set_black s (x : gset string) : t_log (set_black s x) = t_log s.
Proof. destruct s; reflexivity. Qed.
Lemma t_conv_set_black s (x : gset string) : t_conv (set_black s x) = t_conv s.
Proof. destruct s; reflexivity. Qed.
Lemma t_conv_init_set_black s (x : gset string) : t_conv_init (set_black s x) = t_conv_init s.
Proof. destruct s; reflexivity. Qed.
Lemma k_period_set_black s (x : gset string) : k_period (set_black s x) = k_period s.
Proof. destruct s; reflexivity. Qed.
Lemma k_second_set_black s (x : gset string) : k_second (set_black s x) = k_second s.
Proof. destruct s; reflexivity. Qed.
Lemma k_stamp_set_black s (x : gset string) : k_stamp (set_black s x) = k_stamp s.
Proof. destruct s; reflexivity. Qed.
Lemma t_trace_set_black s (x : gset string) : t_trace (set_black s x) = t_trace s.
Proof. destruct s; reflexivity. Qed.
Lemma get_tbl_set_black s (x : gset string) k' : get_tbl (set_black s x) k' = get_tbl s k'.
Proof. destruct s, k' as [[]| |[]]; reflexivity. Qed.
Lemma get_frags_set_black s (x : gset string) f' : get_frags (set_black s x) f' = get_frags s f'.
Proof. destruct s, f'; reflexivity. Qed.
Lemma t_payload_set_log s (x : gmap Z log_entry) : t_payload (set_log s x) = t_payload s.
Proof. destruct s; reflexivity. Qed.
Lemma t_black_set_log s (x : gmap Z log_entry) : t_black (set_log s x) = t_black s.
Proof. destruct s; reflexivity. Qed.
Lemma t_log_set_log s (x : gmap Z log_entry) : t_log (set_log s x) = x.
Proof. destruct s; reflexivity. Qed.
Lemma t_conv_set_log s (x : gmap Z log_entry) : t_conv (set_log s x) = t_conv s.
Proof. destruct s; reflexivity. Qed.
Lemma t_conv_init_set_log s (x : gmap Z log_entry) : t_conv_init (set_log s x) = t_conv_init s.
Proof. destruct s; reflexivity. Qed.
Lemma k_period_set_log s (x : gmap Z log_entry) : k_period (set_log s x) = k_period s.
Proof. destruct s; reflexivity. Qed.
Lemma k_second_set_log s (x : gmap Z log_entry) : k_second (set_log s x) = k_second s.
Proof. destruct s; reflexivity. Qed.
Lemma k_stamp_set_log s (x : gmap Z log_entry) : k_stamp (set_log s x) = k_stamp s.
Proof. destruct s; reflexivity. Qed.
Lemma t_trace_set_log s (x : gmap Z log_entry) : t_trace (set_log s x) = t_trace s.
Proof. destruct s; reflexivity. Qed.
Lemma get_tbl_set_log s (x : gmap Z log_entry) k' : get_tbl (set_log s x) k' = get_tbl s k'.
Proof. destruct s, k' as [[]| |[]]; reflexivity. Qed.
Lemma get_frags_set_log s (x : gmap Z log_entry) f' : get_frags (set_log s x) f' = get_frags s f'.
Proof. destruct s, f'; reflexivity. Qed.
Lemma t_payload_set_conv s (x : string) : t_payload (set_conv s x) = t_payload s.
Proof. destruct s; reflexivity. Qed.
Lemma t_black_set_conv s (x : string) : t_black (set_conv s x) = t_black s.
Proof. destruct s; reflexivity. Qed.
Lemma t_log_set_conv s (x : string) : t_log (set_conv s x) = t_log s.
Proof. destruct s; reflexivity. Qed.
Lemma t_conv_set_conv s (x : string) : t_conv (set_conv s x) = x.
Proof. destruct s; reflexivity. Qed.
Lemma t_conv_init_set_conv s (x : string) : t_conv_init (set_conv s x) = t_conv_init s.
Proof. destruct s; reflexivity. Qed.
Lemma k_period_set_conv s (x : string) : k_period (set_conv s x) = k_period s.
Proof. destruct s; reflexivity. Qed.
Lemma k_second_set_conv s (x : string) : k_second (set_conv s x) = k_second s.
Proof. destruct s; reflexivity. Qed.
Lemma k_stamp_set_conv s (x : string) : k_stamp (set_conv s x) = k_stamp s.
Proof. destruct s; reflexivity. Qed.
Lemma t_trace_set_conv s (x : string) : t_trace (set_conv s x) = t_trace s.
Proof. destruct s; reflexivity. Qed.
Lemma get_tbl_set_conv s (x : string) k' : get_tbl (set_conv s x) k' = get_tbl s k'.
Proof. destruct s, k' as [[]| |[]]; reflexivity. Qed.
Lemma get_frags_set_conv s (x : string) f' : get_frags (set_conv s x) f' = get_frags s f'.
Proof. destruct s, f'; reflexivity. Qed.
Lemma t_payload_set_conv_init s (x : string) : t_payload (set_conv_init s x) = t_payload s.
Proof. destruct s; reflexivity. Qed.
Lemma t_black_set_conv_init s (x : string) : t_black (set_conv_init s x) = t_black s.
Proof. destruct s; reflexivity. Qed.
Lemma t_log_set_conv_init s (x : string) : t_log (set_conv_init s x) = t_log s.
Proof. destruct s; reflexivity. Qed.
Lemma t_conv_set_conv_init s (x : string) : t_conv (set_conv_init s x) = t_conv s.
Proof. destruct s; reflexivity. Qed.
Lemma t_conv_init_set_conv_init s (x : string) : t_conv_init (set_conv_init s x) = x.
Proof. destruct s; reflexivity. Qed.
Lemma k_period_set_conv_init s (x : string) : k_period (set_conv_init s x) = k_period s.
Proof. destruct s; reflexivity. Qed.
Lemma k_second_set_conv_init s (x : string) : k_second (set_conv_init s x) = k_second s.
Proof. destruct s; reflexivity. Qed.
Lemma k_stamp_set_conv_init s (x : string) : k_stamp (set_conv_init s x) = k_stamp s.
Proof. destruct s; reflexivity. Qed.
Lemma t_trace_set_conv_init s (x : string) : t_trace (set_conv_init s x) = t_trace s.
Proof. destruct s; reflexivity. Qed.
Lemma get_tbl_set_conv_init s (x : string) k' : get_tbl (set_conv_init s x) k' = get_tbl s k'.
Proof. destruct s, k' as [[]| |[]]; reflexivity. Qed.
Lemma get_frags_set_conv_init s (x : string) f' : get_frags (set_conv_init s x) f' = get_frags s f'.
Proof. destruct s, f'; reflexivity. Qed.
Lemma t_payload_set_clock s (a b c : string) : t_payload (set_clock s a b c) = t_payload s.
Proof. destruct s; reflexivity. Qed.
Lemma t_black_set_clock s (a b c : string) : t_black (set_clock s a b c) = t_black s.
Proof. destruct s; reflexivity. Qed.
Lemma t_log_set_clock s (a b c : string) : t_log (set_clock s a b c) = t_log s.
Proof. destruct s; reflexivity. Qed.
Lemma t_conv_set_clock s (a b c : string) : t_conv (set_clock s a b c) = t_conv s.
Proof. destruct s; reflexivity. Qed.
Lemma t_conv_init_set_clock s (a b c : string) : t_conv_init (set_clock s a b c) = t_conv_init s.
Proof. destruct s; reflexivity. Qed.
Lemma k_period_set_clock s (a b c : string) : k_period (set_clock s a b c) = a.
Proof. destruct s; reflexivity. Qed.
Lemma k_second_set_clock s (a b c : string) : k_second (set_clock s a b c) = b.
Proof. destruct s; reflexivity. Qed.
Lemma k_stamp_set_clock s (a b c : string) : k_stamp (set_clock s a b c) = c.
Proof. destruct s; reflexivity. Qed.
Lemma t_trace_set_clock s (a b c : string) : t_trace (set_clock s a b c) = t_trace s.
Proof. destruct s; reflexivity. Qed.
Lemma get_tbl_set_clock s (a b c : string) k' : get_tbl (set_clock s a b c) k' = get_tbl s k'.
Proof. destruct s, k' as [[]| |[]]; reflexivity. Qed.
Lemma get_frags_set_clock s (a b c : string) f' : get_frags (set_clock s a b c) f' = get_frags s f'.
Proof. destruct s, f'; reflexivity. Qed.
Lemma t_payload_add_trace s (l : list gevt) : t_payload (add_trace s l) = t_payload s.
Proof. destruct s; reflexivity. Qed.
Lemma t_black_add_trace s (l : list gevt) : t_black (add_trace s l) = t_black s.
Proof. destruct s; reflexivity. Qed.
Lemma t_log_add_trace s (l : list gevt) : t_log (add_trace s l) = t_log s.
Proof. destruct s; reflexivity. Qed.
Lemma t_conv_add_trace s (l : list gevt) : t_conv (add_trace s l) = t_conv s.
Proof. destruct s; reflexivity. Qed.
Lemma t_conv_init_add_trace s (l : list gevt) : t_conv_init (add_trace s l) = t_conv_init s.
Proof. destruct s; reflexivity. Qed.
Lemma k_period_add_trace s (l : list gevt) : k_period (add_trace s l) = k_period s.
Proof. destruct s; reflexivity. Qed.
Lemma k_second_add_trace s (l : list gevt) : k_second (add_trace s l) = k_second s.
Proof. destruct s; reflexivity. Qed.
Lemma k_stamp_add_trace s (l : list gevt) : k_stamp (add_trace s l) = k_stamp s.
Proof. destruct s; reflexivity. Qed.
Lemma t_trace_add_trace s (l : list gevt) : t_trace (add_trace s l) = (t_trace s ++ l)%list.
Proof. destruct s; reflexivity. Qed.
Lemma get_tbl_add_trace s (l : list gevt) k' : get_tbl (add_trace s l) k' = get_tbl s k'.
Proof. destruct s, k' as [[]| |[]]; reflexivity. Qed.
Lemma get_frags_add_trace s (l : list gevt) f' : get_frags (add_trace s l) f' = get_frags s f'.
Proof. destruct s, f'; reflexivity. Qed.
Lemma t_payload_replace s : t_payload (replace_storage s).1 = ∅.
Proof. destruct s; reflexivity. Qed.
Lemma t_black_replace s : t_black (replace_storage s).1 = t_black s.
Proof. destruct s; reflexivity. Qed.
Lemma t_log_replace s : t_log (replace_storage s).1 = t_log s.
Proof. destruct s; reflexivity. Qed.
Lemma t_conv_replace s : t_conv (replace_storage s).1 = t_conv s.
Proof. destruct s; reflexivity. Qed.
Lemma t_conv_init_replace s : t_conv_init (replace_storage s).1 = t_conv_init s.
Proof. destruct s; reflexivity. Qed.
Lemma k_period_replace s : k_period (replace_storage s).1 = k_period s.
Proof. destruct s; reflexivity. Qed.
Lemma k_second_replace s : k_second (replace_storage s).1 = k_second s.
Proof. destruct s; reflexivity. Qed.
Lemma k_stamp_replace s : k_stamp (replace_storage s).1 = k_stamp s.
Proof. destruct s; reflexivity. Qed.
Lemma t_trace_replace s : t_trace (replace_storage s).1 = (t_trace s ++ [EvWiped])%list.
Proof. destruct s; reflexivity. Qed.
Lemma get_tbl_replace s k : get_tbl (replace_storage s).1 k = ∅.
Proof. destruct s, k as [[]| |[]]; reflexivity. Qed.
Lemma get_frags_replace s f : get_frags (replace_storage s).1 f = ∅.
Proof. destruct s, f; reflexivity. Qed.
Lemma replace_con s : (replace_storage s).2 = get_tbl s OCon.
Proof. destruct s; reflexivity. Qed.

Global Hint Rewrite t_payload_set_tbl t_black_set_tbl t_log_set_tbl t_conv_set_tbl t_conv_init_set_tbl k_period_set_tbl k_second_set_tbl k_stamp_set_tbl t_trace_set_tbl get_frags_set_tbl t_payload_set_frags t_black_set_frags t_log_set_frags t_conv_set_frags t_conv_init_set_frags k_period_set_frags k_second_set_frags k_stamp_set_frags t_trace_set_frags get_tbl_set_frags t_payload_set_payload t_black_set_payload t_log_set_payload t_conv_set_payload t_conv_init_set_payload k_period_set_payload k_second_set_payload k_stamp_set_payload t_trace_set_payload get_tbl_set_payload get_frags_set_payload t_payload_set_black t_black_set_black t_log_set_black t_conv_set_black t_conv_init_set_black k_period_set_black k_second_set_black k_stamp_set_black t_trace_set_black get_tbl_set_black get_frags_set_black t_payload_set_log t_black_set_log t_log_set_log t_conv_set_log t_conv_init_set_log k_period_set_log k_second_set_log k_stamp_set_log t_trace_set_log get_tbl_set_log get_frags_set_log t_payload_set_conv t_black_set_conv t_log_set_conv t_conv_set_conv t_conv_init_set_conv k_period_set_conv k_second_set_conv k_stamp_set_conv t_trace_set_conv get_tbl_set_conv get_frags_set_conv t_payload_set_conv_init t_black_set_conv_init t_log_set_conv_init t_conv_set_conv_init t_conv_init_set_conv_init k_period_set_conv_init k_second_set_conv_init k_stamp_set_conv_init t_trace_set_conv_init get_tbl_set_conv_init get_frags_set_conv_init t_payload_set_clock t_black_set_clock t_log_set_clock t_conv_set_clock t_conv_init_set_clock k_period_set_clock k_second_set_clock k_stamp_set_clock t_trace_set_clock get_tbl_set_clock get_frags_set_clock t_payload_add_trace t_black_add_trace t_log_add_trace t_conv_add_trace t_conv_init_add_trace k_period_add_trace k_second_add_trace k_stamp_add_trace t_trace_add_trace get_tbl_add_trace get_frags_add_trace t_payload_replace t_black_replace t_log_replace t_conv_replace t_conv_init_replace k_period_replace k_second_replace k_stamp_replace t_trace_replace get_tbl_replace get_frags_replace replace_con : gst.
