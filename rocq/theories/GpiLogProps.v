(** C107: messages of the C++ code reach the log. *)
From Coq Require Import String Lia.
From Verif Require Import Base TextModel XmlModel LogModel GpiLogModel.
From Verif Require InitModel.
Open Scope Z_scope.

(** * The buffer *)
(** A message of any length is put together whole, whatever the buffer held before, and the buffer never shrinks. *)
Theorem C107_text old b t : (0 < b_cap b)%nat -> exists b', fill old b (Some t) = Some b' /\ b_str b' = t /\ (List.length t < b_cap b')%nat /\ (b_cap b <= b_cap b')%nat.
Proof.
  intros C. unfold fill, vsnprintf. set (n := List.length t).
  destruct (Nat.leb_spec (b_cap b) n) as [L|L].
  - assert (E : (if (if old && true then -1 else Z.of_nat n) <? 0 then Z.of_nat n else if old && true then -1 else Z.of_nat n) = Z.of_nat n).
    { destruct (old && true); [reflexivity|]. destruct (Z.ltb_spec (Z.of_nat n) 0); lia. }
    rewrite E. destruct (Z.leb_spec (Z.of_nat (b_cap b)) (Z.of_nat n)); [|lia]. eexists. split; [reflexivity|]. cbn [b_str b_cap snd].
    rewrite Nat2Z.id. split; [apply firstn_all2; fold n; lia|lia].
  - rewrite Bool.andb_false_r. destruct (Z.ltb_spec (Z.of_nat n) 0); [lia|]. destruct (Z.leb_spec (Z.of_nat (b_cap b)) (Z.of_nat n)); [lia|].
    eexists. split; [reflexivity|]. cbn [b_str b_cap]. split; [apply firstn_all2; fold n; lia|lia].
Qed.
Print Assumptions C107_text.
Example C107_text_ex : fill true (Buffer 4 (lit "old")) (Some (lit "longer")) = Some (Buffer 7 (lit "longer")) /\ fill false (Buffer 8 []) (Some (lit "short")) = Some (Buffer 8 (lit "short")).
Proof. split; reflexivity. Qed.

(** Nothing is written beyond the buffer: each call of vsnprintf writes less characters than it is told, the start of the text as far as it fits. *)
Theorem C107_bounds old cap t : (0 < cap)%nat -> (List.length (snd (vsnprintf old cap t)) < cap)%nat /\
  (exists rest, t = snd (vsnprintf old cap t) ++ rest /\ (rest = [] <-> (List.length t < cap)%nat)) /\
  ((List.length t < cap)%nat -> fst (vsnprintf old cap t) = Z.of_nat (List.length t)).
Proof.
  intros C. unfold vsnprintf. cbn [fst snd]. split; [rewrite firstn_length; lia|]. split.
  - exists (skipn (cap - 1) t). split; [symmetry; apply firstn_skipn|]. split; intros X.
    + apply (f_equal (@List.length Z)) in X. rewrite skipn_length in X. cbn in X. lia.
    + apply skipn_all2. lia.
  - intros L. destruct (Nat.leb_spec cap (List.length t)); [lia|]. now rewrite Bool.andb_false_r.
Qed.
Print Assumptions C107_bounds.
Example C107_bounds_ex : snd (vsnprintf false 4 (lit "hello")) = lit "hel" /\ fst (vsnprintf false 4 (lit "hello")) = 5 /\ fst (vsnprintf true 4 (lit "hello")) = -1.
Proof. repeat split. Qed.
(** The name printed for a level is that of GPI_LOG_LEVEL, and dashes for levels which have none. *)
Theorem C107_names level : (forall v, env_level v = Some level -> level_str level = v) /\ (level_str level = lit "------" <-> forall v, env_level v <> Some level).
Proof.
  assert (F : forall v n, env_level v = Some n -> In (v, n) level_table).
  { unfold env_level. intros v n E. destruct (find _ level_table) as [[w k]|] eqn:F; [|discriminate E]. injection E as <-. apply find_some in F as [I Q]. cbn in Q. apply pystr_eqb_eq in Q. now subst w. }
  assert (G : forall v n, In (v, n) level_table -> level_str n = v).
  { intros v n I. unfold level_table in I. repeat (destruct I as [[= <- <-]|I]; [reflexivity|]). destruct I. }
  split; [intros v E; apply G, F, E|]. split.
  - intros E v X. apply F in X. pose proof (G _ _ X) as Y. rewrite E in Y. subst v. unfold level_table in X. repeat (destruct X as [X|X]; [discriminate X|]). destruct X.
  - intros N. unfold level_str.
    destruct (Z.eqb_spec level 5) as [->|]; [now destruct (N (lit "TRACE"))|]. destruct (Z.eqb_spec level 10) as [->|]; [now destruct (N (lit "DEBUG"))|].
    destruct (Z.eqb_spec level 20) as [->|]; [now destruct (N (lit "INFO"))|]. destruct (Z.eqb_spec level 30) as [->|]; [now destruct (N (lit "WARNING"))|].
    destruct (Z.eqb_spec level 40) as [->|]; [now destruct (N (lit "ERROR"))|]. destruct (Z.eqb_spec level 50) as [->|]; [now destruct (N (lit "CRITICAL"))|reflexivity].
Qed.
Print Assumptions C107_names.
Example C107_names_ex : level_str 20 = lit "INFO" /\ level_str 35 = lit "------".
Proof. split; reflexivity. Qed.

(** * The native logger *)
(** A message is printed exactly if its level is not below the one set, INFO (20) if none is set. *)
Theorem C107_native old s a t : (0 < b_cap (g_buf s))%nat ->
  s_out (native old s a (Some t)) = (if a_level a <? (if g_level s =? 0 then 20 else g_level s) then [] else [Line (native_line a t)]) ++ s_out s.
Proof.
  intros C. unfold native, native_skips. destruct (a_level a <? _); [reflexivity|]. destruct (C107_text old (g_buf s) t C) as (b & -> & -> & _). reflexivity.
Qed.
Print Assumptions C107_native.
Example C107_native_ex : s_out (native false start (Args (lit "gpi") 20 (lit "GpiCommon.cpp") (lit "gpi_init") 7) (Some (lit "hello"))) =
  [Line (lit "     -.--ns INFO     gpi                                       GpiCommon.cpp:7    in gpi_init                        hello" ++ [10])] /\
  s_out (native false start (Args (lit "gpi") 10 (lit "GpiCommon.cpp") (lit "gpi_init") 7) (Some (lit "hello"))) = [].
Proof. split; vm_compute; reflexivity. Qed.
Lemma pad_right_more s n m : Z.of_nat (List.length s) <= n -> n <= m -> pad_right s m = pad_right s n ++ blanks (m - n).
Proof.
  intros A B. unfold pad_right, blanks. rewrite <- app_assoc, <- repeat_app. do 2 f_equal. lia.
Qed.
(** The line is the one which the formatter of Python makes of the record in the full format without a simulation time, if the names of the logger and of the
    function fit: the log looks alike before and after Python takes over. *)
Theorem C107_alike a t : In (a_level a) [5; 10; 20; 30; 40; 50] -> (List.length (a_name a) <= 34)%nat -> (List.length (a_func a) <= 31)%nat ->
  native_line a t = default_prefix false (Record (a_level a) (level_str (a_level a)) (a_name a) (a_path a) (a_line a) (Some (a_func a)) None [] [] []) [] [] ++ t ++ [10].
Proof.
  intros L N F. unfold native_line, default_prefix. cbn [r_time simtime_fmt r_levelname r_name r_filename r_lineno r_func app].
  assert (E1 : lit "     -.--ns " = pad_left (lit "-.--ns") 11 ++ [32]) by reflexivity.
  assert (E2 : pad_right (level_str (a_level a)) 9 = pad_right (level_str (a_level a)) 8 ++ [32]).
  { apply (pad_right_more _ 8 9); [|lia]. destruct L as [L|[L|[L|[L|[L|[L|[]]]]]]]; rewrite <- L; vm_compute; discriminate. }
  assert (E3 : pad_right (a_name a) 35 = log_ljust (a_name a) 34 ++ [32]).
  { unfold log_ljust. destruct (Z.ltb_spec 34 (Z.of_nat (List.length (a_name a)))); [lia|]. apply (pad_right_more _ 34 35); lia. }
  assert (E4 : pad_right (a_func a) 31 = log_ljust (a_func a) 31).
  { unfold log_ljust. destruct (Z.ltb_spec 31 (Z.of_nat (List.length (a_func a)))); [lia|reflexivity]. }
  assert (E5 : (if 20 <? Z.of_nat (List.length (a_path a)) then lit ".." ++ pad_left (skipn (List.length (a_path a) - 18) (a_path a)) 18 ++ [58] else pad_left (a_path a) 20 ++ [58]) =
    log_rjust (a_path a) 20 ++ [58]).
  { unfold log_rjust. destruct (Z.ltb_spec 20 (Z.of_nat (List.length (a_path a)))) as [G|G]; [|reflexivity].
    rewrite <- app_assoc. f_equal. f_equal. unfold pad_left, slice_from. change ((20 - 2) * -1 <? 0) with true. cbv iota. change (Z.to_nat (- ((20 - 2) * -1))) with 18%nat.
    unfold blanks. rewrite skipn_length. replace (Z.to_nat (18 - Z.of_nat (List.length (a_path a) - (List.length (a_path a) - 18)))) with 0%nat by lia. reflexivity. }
  rewrite E1, E2, E3, E4, E5. repeat (progress (rewrite <- ?app_assoc; cbn [app])). reflexivity.
Qed.
Print Assumptions C107_alike.
Example C107_alike_ex : let a := Args (lit "gpi.vpi") 30 (lit "share/lib/gpi/vpi/VpiImpl.cpp") (lit "get_sim_time") 12 in
  In (a_level a) [5; 10; 20; 30; 40; 50] /\ (List.length (a_name a) <= 34)%nat /\ (List.length (a_func a) <= 31)%nat /\ (20 < List.length (a_path a))%nat.
Proof. cbn. split; [tauto|]. lia. Qed.
(** Longer names are cut by Python, but shift the columns of the native logger. *)
Theorem C107_shift_refuted : exists a t, List.length (a_name a) = 35%nat /\ level_str (a_level a) = lit "INFO" /\
  native_line a t <> default_prefix false (Record (a_level a) (level_str (a_level a)) (a_name a) (a_path a) (a_line a) (Some (a_func a)) None [] [] []) [] [] ++ t ++ [10].
Proof. exists (Args (repeat 97 35) 20 (lit "f.cpp") (lit "f") 1), []. split; [reflexivity|]. split; [reflexivity|]. vm_compute. discriminate. Qed.
Print Assumptions C107_shift_refuted.

(** * Handing over *)
Section Nested.
Variable P : msg -> Prop.
Hypothesis H : forall a t get got during logged, Forall P get -> Forall P during -> P (Msg a t get got during logged).
Fixpoint msg_ind2 (m : msg) : P m :=
  let all := fix all (l : list msg) : Forall P l := match l with [] => Forall_nil P | m :: l => Forall_cons m (msg_ind2 m) (all l) end in
  match m with Msg a t get got during logged => H a t get got during logged (all get) (all during) end.
End Nested.
(** The messages logged meanwhile, one after the other. *)
Definition all (old : bool) (utf8 : pystr -> bool) : st -> list msg -> outcome st :=
  fix all (s : st) (l : list msg) : outcome st := match l with [] => Fine s | m :: l => then_ (pygpi old utf8 s m) (fun s => all s l) end.
Lemma pygpi_eq old utf8 s a text get got during logged : pygpi old utf8 s (Msg a text get got during logged) =
  if negb (p_level s =? 0) && (a_level a <? p_level s) then Fine s
  else if negb (p_conf s) then match p_back s with Some HNative => Fine (native old s a text) | Some HPygpi => Endless | None => NullCall end
  else match fill old (p_buf s) text with
       | None => Fine (out s Failed)
       | Some b =>
           let s := set_pbuf s b in
           then_ (if existsb (pystr_eqb (a_name a)) (p_known s) then Fine (s, true)
                  else then_ (all old utf8 s get) (fun s => Fine (if got then (know s (a_name a), true) else (s, false))))
             (fun '(s, found) =>
                if negb found then fallback old s a (b_str (p_buf s))
                else if negb (utf8 (b_str (p_buf s))) then fallback old s a (b_str (p_buf s))
                else then_ (all old utf8 (out s (ToPython a (b_str (p_buf s)))) during) (fun s => if logged then Fine s else fallback old s a (b_str (p_buf s))))
       end.
Proof. reflexivity. Qed.

(** The state when [initialize] was called once: there is a handler to fall back to. *)
Definition ready (s : st) : Prop := (0 < b_cap (g_buf s))%nat /\ (0 < b_cap (p_buf s))%nat /\ p_back s = Some HNative /\ (p_level s = 0 \/ p_level s = g_level s).
(** What a call of a handler may do: it returns, more has come out and nothing else changed than buffers and known loggers; or it reads arguments which were not
    given. *)
Definition sane (s : st) (o : outcome st) : Prop :=
  match o with
  | Fine s' => ready s' /\ g_level s' = g_level s /\ g_handler s' = g_handler s /\ p_level s' = p_level s /\ p_conf s' = p_conf s /\ exists l, s_out s' = l ++ s_out s
  | Garbage => True
  | _ => False
  end.
Lemma sane_refl s : ready s -> sane s (Fine s).
Proof. intros R. cbn. split; [exact R|]. repeat (split; [reflexivity|]). now exists []. Qed.
Lemma sane_trans s s1 o : sane s (Fine s1) -> sane s1 o -> sane s o.
Proof.
  intros (R1 & A1 & B1 & C1 & D1 & l1 & E1) X. destruct o as [s2| | |]; try exact X. destruct X as (R2 & A2 & B2 & C2 & D2 & l2 & E2).
  cbn. split; [exact R2|]. split; [congruence|]. split; [congruence|]. split; [congruence|]. split; [congruence|]. exists (l2 ++ l1). rewrite E2, E1. now rewrite app_assoc.
Qed.
Lemma sane_then s o f : sane s o -> (forall s1, sane s (Fine s1) -> sane s1 (f s1)) -> sane s (then_ o f).
Proof. intros X F. destruct o as [s1| | |]; try exact X. exact (sane_trans s s1 _ X (F s1 X)). Qed.
Lemma sane_out s e : ready s -> sane s (Fine (out s e)).
Proof. intros R. cbn. split; [exact R|]. repeat (split; [reflexivity|]). now exists [e]. Qed.
Lemma sane_pbuf s b : ready s -> (0 < b_cap b)%nat -> sane s (Fine (set_pbuf s b)).
Proof. intros (A & B & C) D. cbn. split; [now split|]. repeat (split; [reflexivity|]). now exists []. Qed.
Lemma sane_gbuf s b : ready s -> (0 < b_cap b)%nat -> sane s (Fine (set_gbuf s b)).
Proof. intros (A & B & C) D. cbn. split; [now split|]. repeat (split; [reflexivity|]). now exists []. Qed.
Lemma sane_know s n : ready s -> sane s (Fine (know s n)).
Proof. intros R. cbn. split; [exact R|]. repeat (split; [reflexivity|]). now exists []. Qed.
Lemma sane_native old s a t : ready s -> sane s (Fine (native old s a t)).
Proof.
  intros R. unfold native. destruct (native_skips _ _); [now apply sane_refl|]. destruct t as [t|]; [|exact (sane_out s Failed R)].
  destruct (C107_text old (g_buf s) t (proj1 R)) as (b & -> & _ & B & _). pose proof (sane_gbuf s b R ltac:(lia)) as G. eapply sane_trans; [exact G|]. apply sane_out, G.
Qed.
Lemma sane_fallback old s a t : ready s -> sane s (fallback old s a t).
Proof.
  intros R. unfold fallback. rewrite (proj1 (proj2 (proj2 R))). destruct (native_skips _ _); [now apply sane_native|].
  destruct (expand t) as [t'|]; [|exact Logic.I]. pose proof (sane_native old s a (Some t') R) as G. eapply sane_trans; [exact G|]. apply sane_native, G.
Qed.
Lemma sane_all old utf8 l : Forall (fun m => forall s, ready s -> sane s (pygpi old utf8 s m)) l -> forall s, ready s -> sane s (all old utf8 s l).
Proof.
  induction 1 as [|m l M _ IH]; intros s R; cbn [all]; [now apply sane_refl|]. apply sane_then; [exact (M s R)|]. intros s1 X. apply IH, X.
Qed.
Lemma sane_pygpi old utf8 m : forall s, ready s -> sane s (pygpi old utf8 s m).
Proof.
  induction m as [a t get got during logged IG ID] using msg_ind2. intros s R. rewrite pygpi_eq.
  destruct (negb (p_level s =? 0) && (a_level a <? p_level s)); [now apply sane_refl|]. destruct (p_conf s) eqn:PC; cbn [negb].
  2: { rewrite (proj1 (proj2 (proj2 R))). now apply sane_native. }
  destruct t as [t|]; [|exact (sane_out s Failed R)]. destruct (C107_text old (p_buf s) t (proj1 (proj2 R))) as (b & -> & _ & B & _).
  cbv zeta. set (s0 := set_pbuf s b). pose proof (sane_pbuf s b R ltac:(lia)) as S0. fold s0 in S0.
  assert (REST : forall s1 found, sane s (Fine s1) -> sane s (if negb found then fallback old s1 a (b_str (p_buf s1))
    else if negb (utf8 (b_str (p_buf s1))) then fallback old s1 a (b_str (p_buf s1))
    else then_ (all old utf8 (out s1 (ToPython a (b_str (p_buf s1)))) during) (fun s => if logged then Fine s else fallback old s a (b_str (p_buf s))))).
  { intros s1 found X. eapply sane_trans; [exact X|]. destruct found; cbn [negb]; [|apply sane_fallback, X]. destruct (utf8 _); cbn [negb]; [|apply sane_fallback, X].
    pose proof (sane_out s1 (ToPython a (b_str (p_buf s1))) (proj1 X)) as Y. eapply sane_trans; [exact Y|].
    apply sane_then; [apply sane_all; [exact ID|apply Y]|]. intros s2 Z. destruct logged; [apply sane_refl, Z|apply sane_fallback, Z]. }
  destruct (existsb (pystr_eqb (a_name a)) (p_known s0)); [exact (REST s0 true S0)|].
  pose proof (sane_all old utf8 get IG s0 (proj1 S0)) as G. destruct (all old utf8 s0 get) as [s1| | |]; try exact G. cbn [then_].
  pose proof (sane_trans s s0 (Fine s1) S0 G) as G'. destruct got; [|exact (REST s1 false G')].
  apply (REST (know s1 (a_name a)) true). eapply sane_trans; [exact G'|]. apply sane_know, G'.
Qed.
(** Once initialised, whatever is logged, configured, set and finalised, in any order, and whatever Python logs meanwhile: no handler is missing and none calls
    itself without end; what has come out is not lost. *)
Definition once (o : op) : Prop := o <> Initialize.
Lemma ready_apply old utf8 s o : ready s -> once o -> match apply old utf8 s o with Fine s' => ready s' /\ exists l, s_out s' = l ++ s_out s | Garbage => True | _ => False end.
Proof.
  intros R N. assert (Q : forall x, sane s x -> match x with Fine s' => ready s' /\ exists l, s_out s' = l ++ s_out s | Garbage => True | _ => False end).
  { intros [s'| | |] X; try exact X. split; [exact (proj1 X)|]. apply X. }
  pose proof R as (A & B & C & D). destruct o as [m|m| | |l|]; cbn [apply].
  - destruct (g_handler s); [exact (Q _ (sane_native old s (args_of m) (text_of m) R))|exact (Q _ (sane_pygpi old utf8 m s R))].
  - exact (Q _ (sane_pygpi old utf8 m s R)).
  - now destruct N.
  - split; [exact R|now exists []].
  - split; [repeat split; cbn; auto|now exists []].
  - rewrite C. split; [repeat split; cbn; auto|now exists []].
Qed.
Lemma ready_run old utf8 l : Forall once l -> forall s, ready s -> match run old utf8 s l with Fine s' => ready s' /\ exists e, s_out s' = e ++ s_out s | Garbage => True | _ => False end.
Proof.
  induction 1 as [|o l O _ IH]; intros s R; cbn [run]; [split; [exact R|now exists []]|].
  pose proof (ready_apply old utf8 s o R O) as X. destruct (apply old utf8 s o) as [s1| | |]; try exact X. destruct X as [R1 [e1 E1]]. cbn [then_].
  specialize (IH s1 R1). destruct (run old utf8 s1 l) as [s2| | |]; try exact IH. destruct IH as [R2 [e2 E2]]. split; [exact R2|]. exists (e2 ++ e1). rewrite E2, E1. now rewrite app_assoc.
Qed.
Lemma native_keeps old s a t : (0 < b_cap (g_buf s))%nat -> (0 < b_cap (g_buf (native old s a t)))%nat /\ p_buf (native old s a t) = p_buf s /\ p_level (native old s a t) = p_level s /\
  p_conf (native old s a t) = p_conf s /\ g_handler (native old s a t) = g_handler s /\ p_back (native old s a t) = p_back s.
Proof.
  intros C. unfold native. destruct (native_skips _ _); [auto 9|]. destruct t as [t|]; [|cbn; auto 9].
  destruct (C107_text old (g_buf s) t C) as (b & F & _ & B & _). rewrite F. cbn. repeat split. lia.
Qed.
Theorem C107_alive old utf8 ms l : Forall once l ->
  match run old utf8 start (map Log ms ++ Initialize :: l) with Fine s => ready s | Garbage => True | _ => False end.
Proof.
  intros O. assert (B : forall ms s, g_handler s = HNative -> (0 < b_cap (g_buf s))%nat -> (0 < b_cap (p_buf s))%nat -> p_level s = 0 ->
    match run old utf8 s (map Log ms ++ Initialize :: l) with Fine s => ready s | Garbage => True | _ => False end).
  { clear ms. induction ms as [|m ms IH]; intros s H1 H2 H3 H4; cbn [map app run apply].
    - cbn [then_]. match goal with |- match run _ _ ?x _ with _ => _ end => assert (R : ready x) by (repeat split; cbn; [exact H2|exact H3|now rewrite H1|now left]);
        pose proof (ready_run old utf8 l O x R) as X; destruct (run old utf8 x l) end; try exact X. exact (proj1 X).
    - rewrite H1. cbn [then_]. destruct (native_keeps old s (args_of m) (text_of m) H2) as (K1 & K2 & K3 & K4 & K5 & K6). apply IH; congruence || rewrite K2; assumption. }
  apply B; cbn; auto; lia.
Qed.
Print Assumptions C107_alive.
Example C107_alive_ex : let m := Msg (Args (lit "gpi") 20 (lit "f.cpp") (lit "f") 1) (Some (lit "x")) [] true [] true in
  Forall once [PyLog m; Configure; SetLevel 10; Log m; Finalize; Log m] /\
  exists s, run false (fun _ => true) start (map Log [m] ++ Initialize :: [PyLog m; Configure; SetLevel 10; Log m; Finalize; Log m]) = Fine s /\ List.length (s_out s) = 4%nat.
Proof. split; [repeat constructor; discriminate|]. eexists. split; [vm_compute; reflexivity|reflexivity]. Qed.

(** Until Python is configured, and after it is finalised, messages are printed as the native logger alone would do it. *)
Theorem C107_before old utf8 s m : ready s -> p_conf s = false -> apply old utf8 s (Log m) = Fine (native old s (args_of m) (text_of m)) /\
  apply old utf8 s (PyLog m) = Fine (native old s (args_of m) (text_of m)).
Proof.
  intros (_ & _ & B & L) C. destruct m as [a t get got during logged]. cbn [apply args_of text_of].
  assert (E : pygpi old utf8 s (Msg a t get got during logged) = Fine (native old s a t)).
  { rewrite pygpi_eq, C, B. cbn [negb]. destruct (negb (p_level s =? 0) && (a_level a <? p_level s)) eqn:K; [|reflexivity].
    apply andb_prop in K as [K1 K2]. apply Bool.negb_true_iff in K1. unfold native, native_skips.
    destruct L as [L|L]; [rewrite L in K1; discriminate|]. rewrite <- L, K1, K2. reflexivity. }
  rewrite E. destruct (g_handler s); split; reflexivity.
Qed.
Print Assumptions C107_before.
Definition hello (level : Z) (text : pystr) : msg := Msg (Args (lit "gpi") level (lit "f.cpp") (lit "f") 1) (Some text) [] true [] true.
Definition yes : pystr -> bool := fun _ => true.
Definition prepared : st := St 0 (Buffer 512 []) HPygpi 0 false [] (Some HNative) (Buffer 512 []) [].
Definition configured : st := St 0 (Buffer 512 []) HPygpi 0 true [lit "gpi"] (Some HNative) (Buffer 512 []) [].
Example C107_before_ex : ready prepared /\ p_conf prepared = false /\ run false yes start [Initialize] = Fine prepared.
Proof. split; [repeat split; cbn; auto; lia|]. split; reflexivity. Qed.

(** Once Python is configured, it is given every message whose level is not below the one set, with its own text, level, file, line and function, if its text can
    be made a string of Python and its logger is known, or is got without other messages meanwhile; whatever happens afterwards. *)
Theorem C107_python old utf8 s a t get got during logged s' : ready s -> p_conf s = true -> (p_level s = 0 \/ p_level s <= a_level a) -> utf8 t = true ->
  (In (a_name a) (p_known s) \/ get = [] /\ got = true) -> pygpi old utf8 s (Msg a (Some t) get got during logged) = Fine s' ->
  exists l, s_out s' = l ++ ToPython a t :: s_out s.
Proof.
  intros R C L U K E. rewrite pygpi_eq, C in E. cbn [negb] in E.
  replace (negb (p_level s =? 0) && (a_level a <? p_level s)) with false in E.
  2: { symmetry. destruct L as [L|L]; [rewrite L; reflexivity|]. destruct (Z.ltb_spec (a_level a) (p_level s)); [lia|]. apply Bool.andb_false_r. }
  destruct (C107_text old (p_buf s) t (proj1 (proj2 R))) as (b & F & T & B & _). rewrite F in E. cbv zeta in E.
  pose proof (sane_pbuf s b R ltac:(lia)) as S0. set (s0 := set_pbuf s b) in *.
  assert (X : exists s1, ready s1 /\ b_str (p_buf s1) = t /\ s_out s1 = s_out s /\
    then_ (all old utf8 (out s1 (ToPython a (b_str (p_buf s1)))) during) (fun s => if logged then Fine s else fallback old s a (b_str (p_buf s))) = Fine s').
  { destruct (existsb (pystr_eqb (a_name a)) (p_known s0)) eqn:Q.
    - cbn [then_ negb] in E. change (b_str (p_buf s0)) with (b_str b) in E. rewrite T, U in E. cbn [negb] in E. exists s0. split; [exact (proj1 S0)|]. change (b_str (p_buf s0)) with (b_str b).
      rewrite T. split; [reflexivity|]. split; [reflexivity|exact E].
    - destruct K as [K|[-> ->]].
      + assert (Y : existsb (pystr_eqb (a_name a)) (p_known s0) = true) by (apply existsb_exists; exists (a_name a); split; [exact K|apply pystr_eqb_refl]). congruence.
      + cbn [all then_ negb] in E. change (b_str (p_buf (know s0 (a_name a)))) with (b_str b) in E. rewrite T, U in E. cbn [negb] in E.
        exists (know s0 (a_name a)). split; [exact (proj1 (sane_know s0 (a_name a) (proj1 S0)))|]. change (b_str (p_buf (know s0 (a_name a)))) with (b_str b).
        rewrite T. split; [reflexivity|]. split; [reflexivity|exact E]. }
  destruct X as (s1 & R1 & T1 & O1 & E1). rewrite T1 in E1. set (s2 := out s1 (ToPython a t)) in *.
  assert (R2 : ready s2) by exact (proj1 (sane_out s1 (ToPython a t) R1)).
  assert (Y : sane s2 (Fine s')).
  { rewrite <- E1. apply sane_then; [apply sane_all; [|exact R2]|intros s3 Z; destruct logged; [apply sane_refl, Z|apply sane_fallback, Z]].
    apply Forall_forall. intros m _. exact (sane_pygpi old utf8 m). }
  destruct Y as (_ & _ & _ & _ & _ & l & Y). exists l. rewrite Y. cbn. now rewrite O1.
Qed.
Print Assumptions C107_python.
Example C107_python_ex : ready configured /\ p_conf configured = true /\ In (lit "gpi") (p_known configured) /\
  exists s', pygpi false yes configured (Msg (Args (lit "gpi") 10 (lit "f.cpp") (lit "f") 1) (Some (lit "outer")) [hello 20 (lit "never")] true [hello 20 (lit "inner")] true) = Fine s' /\
    map (fun e => match e with ToPython _ t => t | _ => [] end) (s_out s') = [lit "inner"; lit "outer"].
Proof. split; [repeat split; cbn; auto; lia|]. split; [reflexivity|]. split; [now left|]. eexists. split; [vm_compute; reflexivity|reflexivity]. Qed.

(** A text read as a format comes out if each "%" in it is doubled, with single ones; otherwise arguments are read which were not given. *)
Definition doubled (t : pystr) : pystr := flat_map (fun c => if c =? 37 then [37; 37] else [c]) t.
Theorem C107_expand f t : expand f = Some t <-> f = doubled t.
Proof.
  split.
  - revert t. assert (X : forall n f t, (List.length f <= n)%nat -> expand f = Some t -> f = doubled t); [|intros t; now apply (X (List.length f))].
    induction n as [|n IH]; intros g t L E.
    + destruct g; [|cbn in L; lia]. injection E as <-. reflexivity.
    + destruct g as [|c g]; [injection E as <-; reflexivity|]. cbn [expand] in E. cbn in L. destruct (Z.eqb_spec c 37) as [->|N].
      * destruct g as [|d g]; [discriminate E|]. destruct (Z.eqb_spec d 37) as [->|]; [|discriminate E]. destruct (expand g) as [u|] eqn:U; [|discriminate E]. injection E as <-.
        cbn in L. rewrite (IH g u ltac:(lia) U). reflexivity.
      * destruct (expand g) as [u|] eqn:U; [|discriminate E]. injection E as <-. cbn [doubled flat_map]. rewrite (proj2 (Z.eqb_neq c 37) N). rewrite (IH g u ltac:(lia) U). reflexivity.
  - intros ->. induction t as [|c t IH]; [reflexivity|]. cbn [doubled flat_map]. destruct (Z.eqb_spec c 37) as [->|N]; cbn [app expand].
    + change (37 =? 37) with true. cbv iota. fold (doubled t). rewrite IH. reflexivity.
    + rewrite (proj2 (Z.eqb_neq c 37) N). fold (doubled t). rewrite IH. reflexivity.
Qed.
Print Assumptions C107_expand.
Example C107_expand_ex : expand (lit "100%% sure") = Some (lit "100% sure") /\ expand (lit "100% sure") = None /\ doubled (lit "plain") = lit "plain".
Proof. repeat split. Qed.
(** If Python cannot take the text, the message is printed by the native logger, as far as its level allows, and a complaint after it. *)
Theorem C107_refused old utf8 s a (t u : pystr) get got during logged : ready s -> p_conf s = true -> (p_level s = 0 \/ p_level s <= a_level a) -> utf8 t = false ->
  In (a_name a) (p_known s) -> t = doubled u -> (if g_level s =? 0 then 20 else g_level s) <= 40 ->
  exists s', pygpi old utf8 s (Msg a (Some t) get got during logged) = Fine s' /\
    s_out s' = Line (native_line (Args (lit "gpi") 40 (lit "pygpi/logging.cpp") (lit "fallback_handler") 40) (lit "Error calling Python logging function from C++ while logging the above")) ::
      (if a_level a <? (if g_level s =? 0 then 20 else g_level s) then [] else [Line (native_line a u)]) ++ s_out s.
Proof.
  intros R C L U K P G. rewrite pygpi_eq, C. cbn [negb].
  replace (negb (p_level s =? 0) && (a_level a <? p_level s)) with false.
  2: { symmetry. destruct L as [L|L]; [rewrite L; reflexivity|]. destruct (Z.ltb_spec (a_level a) (p_level s)); [lia|]. apply Bool.andb_false_r. }
  destruct (C107_text old (p_buf s) t (proj1 (proj2 R))) as (b & F & T & B & _). rewrite F. cbv zeta.
  pose proof (sane_pbuf s b R ltac:(lia)) as S0. set (s0 := set_pbuf s b) in *.
  assert (Y : existsb (pystr_eqb (a_name a)) (p_known s0) = true) by (apply existsb_exists; exists (a_name a); split; [exact K|apply pystr_eqb_refl]).
  rewrite Y. cbn [then_ negb]. change (b_str (p_buf s0)) with (b_str b). rewrite T, U. cbn [negb].
  apply C107_expand in P. unfold fallback. rewrite (proj1 (proj2 (proj2 (proj1 S0)))), P. unfold native_skips. change (g_level s0) with (g_level s).
  destruct (Z.ltb_spec (a_level a) (if g_level s =? 0 then 20 else g_level s)) as [Q|Q].
  - eexists. split; [reflexivity|]. rewrite C107_native by exact (proj1 (proj1 S0)). change (g_level s0) with (g_level s).
    change (a_level complaint) with 40. destruct (Z.ltb_spec 40 (if g_level s =? 0 then 20 else g_level s)); [lia|]. reflexivity.
  - set (s1 := native old s0 a (Some u)). assert (R1 : sane s0 (Fine s1)) by exact (sane_native old s0 a (Some u) (proj1 S0)).
    assert (O1 : s_out s1 = Line (native_line a u) :: s_out s).
    { unfold s1. rewrite C107_native by exact (proj1 (proj1 S0)). change (g_level s0) with (g_level s). destruct (Z.ltb_spec (a_level a) (if g_level s =? 0 then 20 else g_level s)); [lia|reflexivity]. }
    eexists. split; [reflexivity|]. rewrite C107_native by exact (proj1 (proj1 R1)). rewrite (proj1 (proj2 R1)). change (g_level s0) with (g_level s).
    change (a_level complaint) with 40. destruct (Z.ltb_spec 40 (if g_level s =? 0 then 20 else g_level s)); [lia|]. rewrite O1. reflexivity.
Qed.
Print Assumptions C107_refused.
Example C107_refused_ex : ready configured /\ In (lit "gpi") (p_known configured) /\ lit "caf" ++ [233] = doubled (lit "caf" ++ [233]) /\ (if g_level configured =? 0 then 20 else g_level configured) <= 40.
Proof. split; [repeat split; cbn; auto; lia|]. split; [now left|]. split; [reflexivity|cbn; lia]. Qed.
(** Configuring gives the messages to Python, finalising takes them away: the handler is again the one which was there before, and loggers have to be got anew. *)
Theorem C107_states old utf8 s : (exists s', apply old utf8 s Configure = Fine s' /\ p_conf s' = true /\ p_known s' = p_known s /\ g_handler s' = g_handler s /\ s_out s' = s_out s) /\
  (forall h, p_back s = Some h -> exists s', apply old utf8 s Finalize = Fine s' /\ p_conf s' = false /\ p_known s' = [] /\ g_handler s' = h /\ s_out s' = s_out s).
Proof. split; [|intros h B; cbn [apply]; rewrite B]; eexists; (split; [reflexivity|]); repeat split. Qed.
Print Assumptions C107_states.
Example C107_states_ex : exists s, run false yes start [Initialize; Configure; Finalize] = Fine s /\ g_handler s = HNative.
Proof. eexists. split; reflexivity. Qed.
(** A message is dropped exactly if its level is below the one set. *)
Theorem C107_dropped old utf8 s a t get got during logged s' : ready s -> p_conf s = true -> 
  pygpi old utf8 s (Msg a (Some t) get got during logged) = Fine s' -> got = true -> get = [] -> utf8 t = true -> (s_out s' = s_out s <-> p_level s <> 0 /\ a_level a < p_level s).
Proof.
  intros R C E G1 G2 U. split.
  - intros O. destruct (Z.eq_dec (p_level s) 0) as [Z|Z].
    + destruct (C107_python old utf8 s a t get got during logged s' R C (or_introl Z) U (or_intror (conj G2 G1)) E) as (l & X).
      rewrite O in X. apply (f_equal (@List.length event)) in X. rewrite app_length in X. cbn in X. lia.
    + split; [exact Z|]. destruct (Z_lt_le_dec (a_level a) (p_level s)) as [|L]; [assumption|].
      destruct (C107_python old utf8 s a t get got during logged s' R C (or_intror L) U (or_intror (conj G2 G1)) E) as (l & X).
      rewrite O in X. apply (f_equal (@List.length event)) in X. rewrite app_length in X. cbn in X. lia.
  - intros [Z L]. rewrite pygpi_eq in E. replace (negb (p_level s =? 0) && (a_level a <? p_level s)) with true in E.
    + injection E as <-. reflexivity.
    + symmetry. apply andb_true_intro. split; [apply Bool.negb_true_iff; now apply Z.eqb_neq|now apply Z.ltb_lt].
Qed.
Print Assumptions C107_dropped.
Example C107_dropped_ex : exists s', pygpi false yes configured (hello 20 (lit "x")) = Fine s' /\ s_out s' <> s_out configured.
Proof. eexists. split; [vm_compute; reflexivity|discriminate]. Qed.

(** A logger is got once: after a message through it its name is known, and stays so whatever is logged; then [getLogger] is not called for it again. *)
Definition grows (s : st) (o : outcome st) : Prop := match o with Fine s' => incl (p_known s) (p_known s') | _ => True end.
Lemma grows_then s o f : grows s o -> (forall s1, incl (p_known s) (p_known s1) -> grows s1 (f s1)) -> grows s (then_ o f).
Proof. intros X F. destruct o as [s1| | |]; cbn [then_]; try exact Logic.I. specialize (F s1 X). destruct (f s1); cbn [grows] in *; try exact Logic.I. exact (incl_tran X F). Qed.
Lemma native_known old s a t : p_known (native old s a t) = p_known s.
Proof. unfold native. destruct (native_skips _ _); [reflexivity|]. destruct (fill _ _ _); reflexivity. Qed.
Lemma grows_fallback old s a t : grows s (fallback old s a t).
Proof.
  unfold fallback. destruct (p_back s) as [[]|]; try exact Logic.I. destruct (native_skips _ _); [cbn; rewrite native_known; apply incl_refl|].
  destruct (expand t); [|exact Logic.I]. cbn. rewrite !native_known. apply incl_refl.
Qed.
Lemma grows_all old utf8 l : Forall (fun m => forall s, grows s (pygpi old utf8 s m)) l -> forall s, grows s (all old utf8 s l).
Proof. induction 1 as [|m l M _ IH]; intros s; cbn [all]; [apply incl_refl|]. apply grows_then; [apply M|]. intros s1 _. apply IH. Qed.
Lemma grows_pygpi old utf8 m : forall s, grows s (pygpi old utf8 s m).
Proof.
  induction m as [a t get got during logged IG ID] using msg_ind2. intros s. rewrite pygpi_eq.
  destruct (negb (p_level s =? 0) && (a_level a <? p_level s)); [apply incl_refl|]. destruct (p_conf s); cbn [negb].
  2: { destruct (p_back s) as [[]|]; try exact Logic.I. cbn. rewrite native_known. apply incl_refl. }
  destruct (fill old (p_buf s) t) as [b|]; [|apply incl_refl]. cbv zeta. change (grows s) with (grows (set_pbuf s b)). set (s0 := set_pbuf s b).
  assert (REST : forall s1 found, incl (p_known s0) (p_known s1) -> grows s0 (if negb found then fallback old s1 a (b_str (p_buf s1))
    else if negb (utf8 (b_str (p_buf s1))) then fallback old s1 a (b_str (p_buf s1))
    else then_ (all old utf8 (out s1 (ToPython a (b_str (p_buf s1)))) during) (fun s => if logged then Fine s else fallback old s a (b_str (p_buf s))))).
  { intros s1 found X. assert (Y : forall o, grows s1 o -> grows s0 o) by (intros [s2| | |] Z; try exact Logic.I; exact (incl_tran X Z)). apply Y.
    destruct found; cbn [negb]; [|apply grows_fallback]. destruct (utf8 _); cbn [negb]; [|apply grows_fallback].
    change (grows s1) with (grows (out s1 (ToPython a (b_str (p_buf s1))))). apply grows_then; [now apply grows_all|]. intros s2 _. destruct logged; [apply incl_refl|apply grows_fallback]. }
  destruct (existsb (pystr_eqb (a_name a)) (p_known s0)); [exact (REST s0 true (incl_refl _))|].
  pose proof (grows_all old utf8 get IG s0) as G. destruct (all old utf8 s0 get) as [s1| | |]; try exact Logic.I. cbn [then_]. destruct got; [|exact (REST s1 false G)].
  apply (REST (know s1 (a_name a)) true). exact (incl_tran G (incl_tl _ (incl_refl _))).
Qed.
Theorem C107_once old utf8 s a t get during logged s' : ready s -> p_conf s = true -> (p_level s = 0 \/ p_level s <= a_level a) ->
  pygpi old utf8 s (Msg a (Some t) get true during logged) = Fine s' -> In (a_name a) (p_known s').
Proof.
  intros R C L E. rewrite pygpi_eq, C in E. cbn [negb] in E.
  replace (negb (p_level s =? 0) && (a_level a <? p_level s)) with false in E.
  2: { symmetry. destruct L as [L|L]; [rewrite L; reflexivity|]. destruct (Z.ltb_spec (a_level a) (p_level s)); [lia|]. apply Bool.andb_false_r. }
  destruct (C107_text old (p_buf s) t (proj1 (proj2 R))) as (b & F & _). rewrite F in E. cbv zeta in E. set (s0 := set_pbuf s b) in *.
  assert (REST : forall s1, In (a_name a) (p_known s1) -> (if negb (utf8 (b_str (p_buf s1))) then fallback old s1 a (b_str (p_buf s1))
    else then_ (all old utf8 (out s1 (ToPython a (b_str (p_buf s1)))) during) (fun s => if logged then Fine s else fallback old s a (b_str (p_buf s)))) = Fine s' -> In (a_name a) (p_known s')).
  { intros s1 X Y. destruct (utf8 _); cbn [negb] in Y.
    - set (s2 := out s1 (ToPython a (b_str (p_buf s1)))) in *.
      assert (G : grows s2 (Fine s')). { rewrite <- Y. apply grows_then; [apply grows_all, Forall_forall; intros m _; apply grows_pygpi|]. intros s3 _. destruct logged; [apply incl_refl|apply grows_fallback]. }
      apply G, X.
    - pose proof (grows_fallback old s1 a (b_str (p_buf s1))) as G. rewrite Y in G. apply G, X. }
  destruct (existsb (pystr_eqb (a_name a)) (p_known s0)) eqn:Q.
  - apply existsb_exists in Q as (x & I & Q). apply pystr_eqb_eq in Q. subst x. exact (REST s0 I E).
  - destruct (all old utf8 s0 get) as [s1| | |] eqn:G; try discriminate E. cbn [then_ negb] in E. exact (REST (know s1 (a_name a)) (or_introl eq_refl) E).
Qed.
Print Assumptions C107_once.
Theorem C107_once_kept old utf8 s m s' name : pygpi old utf8 s m = Fine s' -> In name (p_known s) -> In name (p_known s').
Proof. intros E I. pose proof (grows_pygpi old utf8 m s) as G. rewrite E in G. exact (G name I). Qed.
Print Assumptions C107_once_kept.
Theorem C107_once_got old utf8 s a t get got get' got' during logged : In (a_name a) (p_known s) ->
  pygpi old utf8 s (Msg a t get got during logged) = pygpi old utf8 s (Msg a t get' got' during logged).
Proof.
  intros I. rewrite !pygpi_eq. destruct (negb _ && _); [reflexivity|]. destruct (negb (p_conf s)); [reflexivity|]. destruct (fill _ _ _) as [b|]; [|reflexivity]. cbv zeta.
  assert (Y : existsb (pystr_eqb (a_name a)) (p_known (set_pbuf s b)) = true) by (apply existsb_exists; exists (a_name a); split; [exact I|apply pystr_eqb_refl]). now rewrite Y.
Qed.
Print Assumptions C107_once_got.
Example C107_once_ex : exists s', pygpi false yes configured (Msg (Args (lit "gpi.new") 20 (lit "f.cpp") (lit "f") 1) (Some (lit "x")) [hello 20 (lit "y")] true [] true) = Fine s' /\
  p_known s' = [lit "gpi.new"; lit "gpi"].
Proof. eexists. split; [vm_compute; reflexivity|reflexivity]. Qed.

(** ** Where it is false *)
(** While [getLogger] runs for a new name, another message is put together in the same buffer: Python is then given that text for the first one, too. *)
Theorem C107_clobber_refuted : exists s', pygpi false yes configured (Msg (Args (lit "gpi.new") 40 (lit "f.cpp") (lit "f") 1) (Some (lit "it failed")) [hello 20 (lit "all is well")] true [] true) = Fine s' /\
  s_out s' = [ToPython (Args (lit "gpi.new") 40 (lit "f.cpp") (lit "f") 1) (lit "all is well"); ToPython (Args (lit "gpi") 20 (lit "f.cpp") (lit "f") 1) (lit "all is well")].
Proof. eexists. split; [vm_compute; reflexivity|reflexivity]. Qed.
Print Assumptions C107_clobber_refuted.
(** If the function of Python fails, or cannot take the text, the text is used as a format: with a "%" in it, arguments are read which were not given. *)
Theorem C107_format_refuted : exists a t, t = lit "100% sure" /\ pygpi false yes configured (Msg a (Some t) [] true [] false) = Garbage.
Proof. exists (Args (lit "gpi") 40 (lit "f.cpp") (lit "f") 1), (lit "100% sure"). split; reflexivity. Qed.
Print Assumptions C107_format_refuted.
(** If the library is initialised twice, its handler falls back to itself: the message which says so is handled without end. *)
Theorem C107_again_refuted : exists m, text_of m = Some (lit "PyGPI library initialized again!") /\ run false yes start [Initialize; Initialize; PyLog m] = Endless.
Proof. exists (hello 40 (lit "PyGPI library initialized again!")). split; reflexivity. Qed.
Print Assumptions C107_again_refuted.

(** * Levels *)
(** Each level accepted by the C++ code in GPI_LOG_LEVEL is the one Python gives the logger and the C++ code later. *)
Theorem C107_env v n root l : env_level v = Some n -> debug_enabled (Some v) = true /\ In n [5; 10; 20; 30; 40; 50] /\ level_str n = v /\
  InitModel.set_gpi_level root (Some v) l = Ok (InitModel.Levels n (InitModel.l_cocotb l) n).
Proof.
  unfold env_level. destruct (find _ level_table) as [[w k]|] eqn:F; [|discriminate]. intros [= <-]. apply find_some in F as [I Q]. cbn in Q. apply pystr_eqb_eq in Q. subst w.
  unfold level_table in I. repeat (destruct I as [[= <- <-]|I]; [split; [reflexivity|]; split; [cbn; auto 9|]; split; reflexivity|]). destruct I.
Qed.
Print Assumptions C107_env.
Example C107_env_ex : env_level (lit "DEBUG") = Some 10.
Proof. reflexivity. Qed.
(** Tracing is enabled by any value of GPI_DEBUG but "0". *)
Theorem C107_debug v : debug_enabled v = true <-> exists t, v = Some t /\ t <> lit "0".
Proof.
  destruct v as [t|]; cbn [debug_enabled]; [|split; [discriminate|intros (t & E & _); discriminate E]].
  split.
  - intros H. exists t. split; [reflexivity|]. intros ->. discriminate H.
  - intros (u & [= <-] & N). destruct (pystr_eqb t (lit "0")) eqn:E; [|reflexivity]. apply pystr_eqb_eq in E. now destruct N.
Qed.
Print Assumptions C107_debug.
Example C107_debug_ex : debug_enabled (Some []) = true /\ debug_enabled (Some (lit "0")) = false /\ debug_enabled None = false.
Proof. repeat split. Qed.
(** Python also takes small letters, spaces around and NOTSET, of which the C++ code says "Invalid log level". *)
Theorem C107_env_refuted : forall v, In v [lit "debug"; lit " DEBUG"; lit "NOTSET"] -> env_level v = None /\ exists l, InitModel.set_gpi_level 30 (Some v) (InitModel.Levels 20 20 0) = Ok l.
Proof. intros v I. repeat (destruct I as [<-|I]; [split; [reflexivity|eexists; vm_compute; reflexivity]|]). destruct I. Qed.
Print Assumptions C107_env_refuted.
(** The level which counts for a logger is its own if it has one (whichever number but 0), otherwise that of "gpi" for those below it, and of the root for all others. *)
Theorem C107_effective ls name : (l_of ls name <> 0 -> effective ls name = l_of ls name) /\
  (l_of ls name = 0 -> (forall n, name = lit "gpi." ++ n -> effective ls name = effective ls (lit "gpi")) /\ ((forall n, name <> lit "gpi." ++ n) -> effective ls name = l_root ls)).
Proof.
  assert (R : forall z, (if z =? 0 then 0 else z) = z) by (intros z; destruct (Z.eqb_spec z 0); congruence).
  unfold effective, parents. split; [|intros Z; split].
  - intros N. destruct (pystr_eqb (firstn 4 name) (lit "gpi.")); cbn [map app first_level]; now rewrite (proj2 (Z.eqb_neq _ _) N).
  - intros n ->. change (firstn 4 (lit "gpi." ++ n)) with (lit "gpi."). change (pystr_eqb (lit "gpi.") (lit "gpi.")) with true. change (pystr_eqb (firstn 4 (lit "gpi")) (lit "gpi.")) with false.
    cbv iota. cbn [map app first_level]. rewrite Z. reflexivity.
  - intros N. destruct (pystr_eqb (firstn 4 name) (lit "gpi.")) eqn:Q.
    + apply pystr_eqb_eq in Q. destruct (N (skipn 4 name)). rewrite <- Q. symmetry. apply firstn_skipn.
    + cbn [map app first_level]. rewrite Z. cbn. apply R.
Qed.
Print Assumptions C107_effective.
Example C107_effective_ex : effective (Loggers 30 (fun n => if pystr_eqb n (lit "gpi") then 10 else 0)) (lit "gpi.vpi") = 10 /\
  effective (Loggers 30 (fun n => if pystr_eqb n (lit "gpi") then 10 else 0)) (lit "pygpi") = 30 /\ effective (Loggers 0 (fun _ => 0)) (lit "gpi") = 0.
Proof. repeat split. Qed.
(** When the level of "gpi" has been set, the level in the C++ code spares work only: a message for "gpi" is recorded exactly if Python would record it. No message is
    ever recorded which Python would not. *)
Theorem C107_levels ls level ls' p m : set_gpi ls level = (ls', p) -> recorded ls' p (lit "gpi") m = enabled ls' (lit "gpi") m.
Proof.
  unfold set_gpi. intros [= <- <-]. unfold recorded, enabled. set (e := effective _ _). clearbody e. destruct (Z.eqb_spec e 0) as [->|N]; [reflexivity|]. cbn [negb andb].
  destruct (Z.ltb_spec m e) as [L|L]; cbn; [destruct (Z.leb_spec e m); [lia|reflexivity]|reflexivity].
Qed.
Print Assumptions C107_levels.
Theorem C107_levels_sound ls p name m : recorded ls p name m = true -> enabled ls name m = true.
Proof. unfold recorded. intros H. now apply andb_prop in H as [_ H]. Qed.
Print Assumptions C107_levels_sound.
Definition quiet : loggers := Loggers 30 (fun _ => 0).
Example C107_levels_ex : let '(ls, p) := set_gpi quiet 10 in p = 10 /\ recorded ls p (lit "gpi") 10 = true /\ recorded ls p (lit "gpi") 5 = false.
Proof. repeat split. Qed.
(** But the level is that of "gpi" when it was last set: messages are dropped which Python would record if the level of the root is lowered afterwards, if a logger
    below "gpi" has a lower level, and for the logger "pygpi", whatever its level is. *)
Theorem C107_root_refuted : exists ls p, set_gpi quiet 0 = (ls, p) /\ let ls2 := Loggers 10 (l_of ls) in enabled ls2 (lit "gpi") 20 = true /\ recorded ls2 p (lit "gpi") 20 = false.
Proof. eexists. eexists. split; [reflexivity|]. split; reflexivity. Qed.
Print Assumptions C107_root_refuted.
Theorem C107_others_refuted : forall name, In name [lit "gpi.vpi"; lit "pygpi"] -> exists ls p,
  set_gpi (Loggers 30 (fun n => if pystr_eqb n name then 10 else 0)) 20 = (ls, p) /\ enabled ls name 10 = true /\ recorded ls p name 10 = false.
Proof. intros name I. repeat (destruct I as [<-|I]; [eexists; eexists; split; [reflexivity|split; reflexivity]|]). destruct I. Qed.
Print Assumptions C107_others_refuted.
