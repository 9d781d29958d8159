(** C111: handles in Python are equal when their pointers are; a call which raises registers nothing. *)
From Coq Require Import String ZArith List Lia Bool.
From Verif Require Import Base BindModel.
Import ListNotations.
Open Scope Z_scope.

(** * Objects for handles *)
(** None for NULL, otherwise a handle of that type around that pointer. *)
Theorem C111_new k p : (p = 0 -> hdl_new k p = VNone) /\ (p <> 0 -> hdl_new k p = VHandle k p).
Proof. unfold hdl_new. destruct (Z.eqb_spec p 0); split; intro; tauto || reflexivity. Qed.
Print Assumptions C111_new.

Lemma kind_eqb_eq a b : kind_eqb a b = true <-> a = b.
Proof. now destruct a, b. Qed.

(** Two handles are equal exactly when they have the same type and pointer, whatever other types do; != is the opposite; neither raises. *)
Theorem C111_equal foreign x y k p l q : o_val x = VHandle k p -> o_val y = VHandle l q -> (o_id x = o_id y -> x = y) ->
  exists b, compare foreign x y Eq = Ok b /\ compare foreign x y Ne = Ok (negb b) /\ (b = true <-> k = l /\ p = q).
Proof.
  intros Hx Hy Hid. unfold compare, slot, richcompare. rewrite Hx, Hy.
  destruct (kind_eqb k l) eqn:E.
  - apply kind_eqb_eq in E. subst l. replace (kind_eqb k k) with true by now destruct k. cbn.
    exists (p =? q). split; [reflexivity|]. split; [reflexivity|]. rewrite Z.eqb_eq. tauto.
  - assert (k <> l) as N by (intro K; apply kind_eqb_eq in K; congruence).
    replace (kind_eqb k k && kind_eqb l k) with false by (destruct k, l; try reflexivity; now destruct N).
    rewrite andb_false_r. cbn [swapped].
    exists false. destruct (Nat.eqb_spec (o_id x) (o_id y)) as [I|I].
    { specialize (Hid I). subst y. rewrite Hx in Hy. injection Hy as ? ?. tauto. }
    split; [reflexivity|]. split; [reflexivity|]. split; [discriminate|tauto].
Qed.
Example C111_equal_example :
  let x := Obj 1 (VHandle KSim 4096) in let y := Obj 2 (VHandle KSim 4096) in let z := Obj 3 (VHandle KClock 4096) in
  let f := fun _ _ _ => Some true in
  compare f x y Eq = Ok true /\ compare f x z Eq = Ok false /\ compare f x z Ne = Ok true /\ compare f x (Obj 4 (VInt 4096)) Eq = Ok true /\ (o_id x = o_id y -> x = y).
Proof. cbn. repeat split; discriminate. Qed.
Print Assumptions C111_equal.

(** With something which is not a handle, that thing decides, and otherwise they are different. *)
Theorem C111_foreign foreign x y k p : o_val x = VHandle k p -> (forall l q, o_val y <> VHandle l q) ->
  compare foreign x y Eq = Ok (match foreign y x Eq with Some b => b | None => false end) \/ o_id x = o_id y.
Proof.
  intros Hx Hy. unfold compare, slot, richcompare. rewrite Hx.
  destruct (o_val y) as [l q| | | | |] eqn:E; [now destruct (Hy l q)|..]; cbn [swapped];
    (destruct (foreign y x Eq); [now left|]); (destruct (Nat.eqb_spec (o_id x) (o_id y)); [now right|now left]).
Qed.
Example C111_foreign_example : compare (fun _ _ _ => None) (Obj 1 (VHandle KSim 8)) (Obj 2 VNone) Eq = Ok false /\ forall l q, VNone <> VHandle l q.
Proof. split; [reflexivity|discriminate]. Qed.
Print Assumptions C111_foreign.

(** Handles are not ordered. *)
Theorem C111_unordered foreign x y k p l q op : o_val x = VHandle k p -> o_val y = VHandle l q -> op <> Eq -> op <> Ne -> compare foreign x y op = Err TypeError.
Proof.
  intros Hx Hy A B. unfold compare, slot, richcompare. rewrite Hx, Hy. destruct op; try tauto; cbn; repeat match goal with |- context [if ?b then _ else _] => destruct b end; reflexivity.
Qed.
Example C111_unordered_example : compare (fun _ _ _ => Some true) (Obj 1 (VHandle KSim 8)) (Obj 2 (VHandle KSim 16)) Lt = Err TypeError.
Proof. reflexivity. Qed.
Print Assumptions C111_unordered.

(** A hash is a number of 64 bits and not -1, which would mean an exception. *)
Theorem C111_hash p : 0 <= p < 2 ^ 64 -> - 2 ^ 63 <= hdl_hash p < 2 ^ 63 /\ hdl_hash p <> -1.
Proof. unfold hdl_hash. intros H. destruct (Z.ltb_spec p (2 ^ 63)); destruct (Z.eqb_spec p (-1)); destruct (Z.eqb_spec (p - 2 ^ 64) (-1)); lia. Qed.
Example C111_hash_example : hdl_hash 4096 = 4096 /\ hdl_hash (2 ^ 64 - 4096) = -4096 /\ hdl_hash (2 ^ 64 - 1) = -2.
Proof. now vm_compute. Qed.
Print Assumptions C111_hash.
(** It tells the pointers apart, but for the last two addresses. *)
Theorem C111_hash_distinct p q : 0 <= p < 2 ^ 64 -> 0 <= q < 2 ^ 64 -> hdl_hash p = hdl_hash q -> p = q \/ (2 ^ 64 - 2 <= p /\ 2 ^ 64 - 2 <= q).
Proof.
  unfold hdl_hash. intros A B. destruct (Z.ltb_spec p (2 ^ 63)); destruct (Z.ltb_spec q (2 ^ 63));
    repeat match goal with |- context [?a =? ?b] => destruct (Z.eqb_spec a b) end; lia.
Qed.
Example C111_hash_distinct_example : hdl_hash (2 ^ 64 - 1) = hdl_hash (2 ^ 64 - 2) /\ hdl_hash 64 <> hdl_hash 128.
Proof. split; [reflexivity|discriminate]. Qed.
Print Assumptions C111_hash_distinct.
(** So handles can be the keys of a dict: equal ones have equal hashes. *)
Theorem C111_keys foreign x y k p l q : o_val x = VHandle k p -> o_val y = VHandle l q -> (o_id x = o_id y -> x = y) ->
  compare foreign x y Eq = Ok true -> hdl_hash p = hdl_hash q.
Proof.
  intros Hx Hy Hid H. destruct (C111_equal foreign x y k p l q Hx Hy Hid) as (b & E & _ & K).
  rewrite E in H. injection H as ->. destruct K as [K _]. destruct (K eq_refl) as [_ ->]. reflexivity.
Qed.
Example C111_keys_example : let x := Obj 1 (VHandle KSim 64) in let y := Obj 2 (VHandle KSim 64) in
  (o_id x = o_id y -> x = y) /\ compare (fun _ _ _ => None) x y Eq = Ok true.
Proof. split; [discriminate|reflexivity]. Qed.
Print Assumptions C111_keys.

(** * Registration *)
(** The five functions. *)
Inductive api := AReadOnly | AReadWrite | ANextStep | ATimed | AValue.
Definition call (a : api) : bool -> list value -> Z -> outcome :=
  match a with
  | AReadOnly => register_phase RReadOnly | AReadWrite => register_phase RReadWrite | ANextStep => register_phase RNextTime
  | ATimed => register_timed | AValue => register_value_change
  end.
(** What their documentation asks for: [args] are right and mean the request [r] with the function [f] and its arguments [rest]. *)
Inductive wanted : api -> list value -> request -> nat -> list value -> Prop :=
| WReadOnly f rest : wanted AReadOnly (VCallable f :: rest) RReadOnly f rest
| WReadWrite f rest : wanted AReadWrite (VCallable f :: rest) RReadWrite f rest
| WNextStep f rest : wanted ANextStep (VCallable f :: rest) RNextTime f rest
| WTimed t f rest : 0 <= t < 2 ^ 63 -> wanted ATimed (VInt t :: VCallable f :: rest) (RTimed t) f rest
| WValue p e f rest : 0 <= e <= 2 -> wanted AValue (VHandle KSim p :: VCallable f :: VInt e :: rest) (RValue p e) f rest.

(** Without a simulator all of them raise RuntimeError and do nothing. *)
Theorem C111_no_simulator a args ans : call a false args ans = Outcome None None (Raises RuntimeError).
Proof. now destruct a. Qed.
Print Assumptions C111_no_simulator.
(** The right arguments: exactly this request, for this function with these arguments; the value is the handle of the callback, or None when it is refused. *)
Theorem C111_accepted a args r f rest ans : wanted a args r f rest ->
  call a true args ans = Outcome (Some (Callback f rest)) (Some (r, ans)) (Returns (if ans =? 0 then VNone else VHandle KCallback ans)).
Proof.
  intros H. destruct H; try reflexivity.
  - cbn [call]. unfold register_timed, as_long. cbn [negb].
    destruct (Z.leb_spec (- 2 ^ 63) t); [|lia]. destruct (Z.ltb_spec t (2 ^ 63)); [|lia]. cbn [andb]. destruct (Z.ltb_spec t 0); [lia|]. reflexivity.
  - cbn [call]. unfold register_value_change, as_long. cbn [negb].
    destruct (Z.leb_spec (- 2 ^ 63) e); [|lia]. destruct (Z.ltb_spec e (2 ^ 63)); [|lia]. cbn [andb]. unfold to_edge. rewrite Z.mod_small by lia. reflexivity.
Qed.
Example C111_accepted_example : wanted AValue [VHandle KSim 64; VCallable 3; VInt 1; VStr [97]; VNone] (RValue 64 1) 3 [VStr [97]; VNone] /\
  call AValue true [VHandle KSim 64; VCallable 3; VInt 1; VStr [97]; VNone] 512 =
    Outcome (Some (Callback 3 [VStr [97]; VNone])) (Some (RValue 64 1, 512)) (Returns (VHandle KCallback 512)).
Proof. split; [constructor; lia|reflexivity]. Qed.
Print Assumptions C111_accepted.

(** Other arguments raise, and then nothing was made or asked for, if the edge is not what is wrong. *)
Theorem C111_refused a args ans : (a = AValue -> forall s g e rest, args = s :: g :: e :: rest -> exists z, e = VInt z /\ 0 <= z <= 2) ->
  (exists r f rest, wanted a args r f rest) \/
  exists e, call a true args ans = Outcome None None (Raises e) /\ (e = TypeError \/ a = ATimed /\ (e = ValueError \/ e = OverflowError)).
Proof.
  intros H. destruct a; cbn [call].
  - destruct args as [|[] rest]; try (right; exists TypeError; split; [reflexivity|now left]). left. do 3 eexists. constructor.
  - destruct args as [|[] rest]; try (right; exists TypeError; split; [reflexivity|now left]). left. do 3 eexists. constructor.
  - destruct args as [|[] rest]; try (right; exists TypeError; split; [reflexivity|now left]). left. do 3 eexists. constructor.
  - clear H. destruct args as [|t [|g rest]]; try (right; exists TypeError; split; [reflexivity|now left]).
    unfold register_timed. cbn [negb]. destruct t as [| z | | | |]; try (right; exists TypeError; split; [reflexivity|now left]).
    cbn [as_long]. destruct (Z.leb_spec (- 2 ^ 63) z); [|right; exists OverflowError; split; [reflexivity|tauto]].
    destruct (Z.ltb_spec z (2 ^ 63)); [|right; exists OverflowError; split; [reflexivity|tauto]]. cbn [andb].
    destruct (Z.ltb_spec z 0); [right; exists ValueError; split; [reflexivity|tauto]|].
    destruct g; try (right; exists TypeError; split; [reflexivity|now left]). left. do 3 eexists. constructor. lia.
  - specialize (H eq_refl). destruct args as [|s [|g [|e rest]]]; try (right; exists TypeError; split; [reflexivity|now left]).
    destruct (H s g e rest eq_refl) as (z & -> & R). unfold register_value_change. cbn [negb].
    destruct s as [[] p | | | | |]; try (right; exists TypeError; split; [reflexivity|now left]).
    destruct g; try (right; exists TypeError; split; [reflexivity|now left]). left. do 3 eexists. now constructor.
Qed.
Example C111_refused_example : call ATimed true [VInt (-1); VCallable 0] 512 = Outcome None None (Raises ValueError) /\
  call ATimed true [VInt (2 ^ 63); VCallable 0] 512 = Outcome None None (Raises OverflowError) /\ call AValue true [VHandle KCallback 8; VCallable 0; VInt 1] 512 = Outcome None None (Raises TypeError).
Proof. now vm_compute. Qed.
Print Assumptions C111_refused.

(** Whatever the arguments, an exception other than SystemError means that nothing was made or asked for. *)
Theorem C111_raised a impl args ans e : u_end (call a impl args ans) = Raises e -> u_made (call a impl args ans) = None /\ u_asked (call a impl args ans) = None.
Proof.
  destruct a; cbn [call]; unfold register_phase, register_timed, register_value_change, ask, raises;
    repeat match goal with |- context [match ?b with _ => _ end] => destruct b; cbn end; try discriminate; now split.
Qed.
Example C111_raised_example : u_end (call AValue true [VHandle KIter 64; VCallable 0; VNone] 512) = Raises TypeError /\ u_end (call AReadOnly true [VNone] 512) = Raises TypeError.
Proof. now split. Qed.
Print Assumptions C111_raised.

(** An edge which is not an int: the call raises, SystemError and not TypeError, but the callback is registered and Python has no handle with
    which to remove it. *)
Theorem C111_edge_refuted : exists args, call AValue true args 512 = Outcome (Some (Callback 0 [])) (Some (RValue 64 (2 ^ 32 - 1), 512)) SystemError /\
  args = [VHandle KSim 64; VCallable 0; VNone].
Proof. now eexists. Qed.
Print Assumptions C111_edge_refuted.
(** This happens for every value which is not an int of 64 bits, and only then; the callback is never called. *)
Theorem C111_system_error impl p f e rest ans a args : 
  (u_end (call a impl args ans) = SystemError -> impl = true /\ a = AValue /\ exists p f e rest, args = VHandle KSim p :: VCallable f :: e :: rest /\ forall z, - 2 ^ 63 <= z < 2 ^ 63 -> e <> VInt z) /\
  ((forall z, - 2 ^ 63 <= z < 2 ^ 63 -> e <> VInt z) -> exists edge, call AValue true (VHandle KSim p :: VCallable f :: e :: rest) ans =
    Outcome (Some (Callback f rest)) (Some (RValue p edge, ans)) SystemError /\ forall text, passes edge text = false).
Proof.
  split.
  - destruct a; cbn [call]; unfold register_phase, register_timed, register_value_change, raises; destruct impl; cbn [negb]; try discriminate.
    + destruct args as [|[] ?]; discriminate.
    + destruct args as [|[] ?]; discriminate.
    + destruct args as [|[] ?]; discriminate.
    + destruct args as [|t [|g r]]; try discriminate. destruct (as_long t); [|discriminate]. destruct (_ <? _); [discriminate|]. destruct g; discriminate.
    + destruct args as [|s [|g [|e' r]]]; try discriminate. destruct s as [[] p'| | | | |]; try discriminate. destruct g as [| | | |f'|]; try discriminate.
      destruct (as_long e') eqn:E; [discriminate|]. intros _. split; [reflexivity|]. split; [reflexivity|]. exists p', f', e', r. split; [reflexivity|].
      intros z Hz ->. cbn [as_long] in E. destruct (Z.leb_spec (- 2 ^ 63) z); [|lia]. destruct (Z.ltb_spec z (2 ^ 63)); [|lia]. discriminate E.
  - intros H. exists (2 ^ 32 - 1). split; [|reflexivity]. cbn [call]. unfold register_value_change. cbn [negb].
    assert (exists x, as_long e = Err x) as [x ->]; [|reflexivity].
    destruct e as [| z | | | |]; try (eexists; reflexivity). cbn [as_long].
    destruct (Z.leb_spec (- 2 ^ 63) z); [|eexists; reflexivity]. destruct (Z.ltb_spec z (2 ^ 63)); [|eexists; reflexivity]. now destruct (H z).
Qed.
Example C111_system_error_example : forall z, - 2 ^ 63 <= z < 2 ^ 63 -> VInt (2 ^ 70) <> VInt z.
Proof. intros z H K. injection K as K. lia. Qed.
Print Assumptions C111_system_error.

(** An int which is not an edge is accepted: the callback is called for no value, and the call does not raise. *)
Theorem C111_silent_refuted : exists args h, call AValue true args 512 = Outcome (Some (Callback 0 [])) (Some (RValue 64 h, 512)) (Returns (VHandle KCallback 512)) /\
  (forall text, passes h text = false) /\ args = [VHandle KSim 64; VCallable 0; VInt 3].
Proof. exists [VHandle KSim 64; VCallable 0; VInt 3], 3. now repeat split. Qed.
Print Assumptions C111_silent_refuted.
(** Which ints give a callback that can be called, and for which values. *)
Theorem C111_passes z text : passes (to_edge z) text = true <->
  z mod 2 ^ 32 = 0 \/ z mod 2 ^ 32 = 1 /\ text = lit "1"%string \/ z mod 2 ^ 32 = 2 /\ text = lit "0"%string.
Proof.
  unfold passes, to_edge. change (lit "1"%string) with [49]. change (lit "0"%string) with [48]. set (m := z mod 2 ^ 32). clearbody m.
  destruct (Z.eqb_spec m 1); [rewrite pystr_eqb_eq; intuition lia|]. destruct (Z.eqb_spec m 2); [rewrite pystr_eqb_eq; intuition lia|].
  rewrite Z.eqb_eq. intuition lia.
Qed.
Example C111_passes_example : passes (to_edge 1) (lit "1"%string) = true /\ passes (to_edge 1) (lit "0"%string) = false /\ passes (to_edge 0) (lit "x"%string) = true /\ passes (to_edge 2) (lit "0"%string) = true.
Proof. now vm_compute. Qed.
Print Assumptions C111_passes.

(** When the interface refuses, the value is None and nothing is raised, but the PythonCallback was made, and no one has a pointer to it. *)
Theorem C111_leak_refuted : exists args, call AReadOnly true args 0 = Outcome (Some (Callback 3 [VInt 1])) (Some (RReadOnly, 0)) (Returns VNone) /\ args = [VCallable 3; VInt 1].
Proof. now eexists. Qed.
Print Assumptions C111_leak_refuted.
(** A PythonCallback is made exactly when the interface is asked. *)
Theorem C111_made a impl args ans : u_made (call a impl args ans) = None <-> u_asked (call a impl args ans) = None.
Proof.
  destruct a; cbn [call]; unfold register_phase, register_timed, register_value_change, ask, raises;
    repeat match goal with |- context [match ?b with _ => _ end] => destruct b; cbn end; split; intro; discriminate || reflexivity.
Qed.
Print Assumptions C111_made.

(** * Calls of callbacks *)
(** The code is 0 exactly without an exception; no exception stays pending; SystemExit is not printed, as that would end the process; the PythonCallback is freed. *)
Theorem C111_handled c : let r := handle_gpi_callback c in
  (h_code r = 0 <-> c = CValue) /\ (h_code r <> 0 -> h_code r = -1) /\ h_pending r = false /\ h_deleted r = true /\ (h_printed r = true <-> c = CException).
Proof. destruct c; cbn; repeat split; intros; congruence || lia. Qed.
Print Assumptions C111_handled.

(** * Looking for objects *)
(** A name is text without a NUL, and the method of discovery is 0 or 1. *)
Theorem C111_by_name args n native : get_handle_by_name args = Ok (n, native) <->
  ~ In 0 n /\ (args = [VStr n] /\ native = false \/ args = [VStr n; VInt 0] /\ native = false \/ args = [VStr n; VInt 1] /\ native = true).
Proof.
  assert (forall s, existsb (Z.eqb 0) s = true <-> In 0 s) as EX.
  { intros s. rewrite existsb_exists. split; [intros (x & I & K); apply Z.eqb_eq in K; now subst x|intros I; exists 0; now split]. }
  split.
  - unfold get_handle_by_name. destruct args as [|v [|m [|]]]; try discriminate.
    + destruct v as [| | |s| |]; try discriminate. cbn. destruct (existsb (Z.eqb 0) s) eqn:E; [discriminate|]. cbn. intros K. injection K as <- <-.
      split; [rewrite <- EX; congruence|now left].
    + destruct v as [| | |s| |]; try discriminate. cbn [parse_s]. destruct (existsb (Z.eqb 0) s) eqn:E; [discriminate|]. cbn [bind].
      destruct m as [| z | | | |]; try discriminate. cbn [parse_i]. destruct ((- 2 ^ 31 <=? z) && (z <? 2 ^ 31)); [|discriminate]. cbn [bind].
      destruct (Z.ltb_spec z 0); [discriminate|]. destruct (Z.ltb_spec 1 z); [discriminate|]. cbn [orb]. intros K. injection K as <- <-.
      split; [rewrite <- EX; congruence|]. right. assert (z = 0 \/ z = 1) as [-> | ->] by lia; [now left|now right].
  - intros (N & H). assert (existsb (Z.eqb 0) n = false) as E by (destruct (existsb (Z.eqb 0) n) eqn:E; [now apply EX in E|reflexivity]).
    destruct H as [[-> ->]|[[-> ->]|[-> ->]]]; cbn; now rewrite E.
Qed.
Example C111_by_name_example : get_handle_by_name [VStr (lit "a.b"%string); VInt 1] = Ok (lit "a.b"%string, true) /\ get_handle_by_name [VStr (lit "a"%string); VInt 2] = Err ValueError /\ ~ In 0 (lit "a.b"%string).
Proof. split; [reflexivity|]. split; [reflexivity|]. cbn. intuition discriminate. Qed.
Print Assumptions C111_by_name.
(** An index is an int of 32 bits; nothing is cut off. *)
Theorem C111_by_index args i : get_handle_by_index args = Ok i <-> args = [VInt i] /\ - 2 ^ 31 <= i < 2 ^ 31.
Proof.
  split.
  - unfold get_handle_by_index. destruct args as [|v []]; try discriminate. destruct v; try discriminate. cbn [parse_i].
    destruct (Z.leb_spec (- 2 ^ 31) z); [|discriminate]. destruct (Z.ltb_spec z (2 ^ 31)); [|discriminate]. intros K. injection K as <-. now split.
  - intros [-> H]. cbn [get_handle_by_index parse_i]. destruct (Z.leb_spec (- 2 ^ 31) i); [|lia]. destruct (Z.ltb_spec i (2 ^ 31)); [|lia]. reflexivity.
Qed.
Example C111_by_index_example : get_handle_by_index [VInt (-3)] = Ok (-3) /\ get_handle_by_index [VInt (2 ^ 31)] = Err OverflowError.
Proof. now vm_compute. Qed.
Print Assumptions C111_by_index.
(** The root: None or a name. *)
Theorem C111_root impl args n : get_root_handle impl args = Ok n <-> impl = true /\ (args = [VNone] /\ n = None \/ exists s, args = [VStr s] /\ n = Some s /\ ~ In 0 s).
Proof.
  assert (forall s, existsb (Z.eqb 0) s = true <-> In 0 s) as EX.
  { intros s. rewrite existsb_exists. split; [intros (x & I & K); apply Z.eqb_eq in K; now subst x|intros I; exists 0; now split]. }
  split.
  - unfold get_root_handle. destruct impl; [|discriminate]. cbn [negb]. destruct args as [|v []]; try discriminate; destruct v as [| | |s| |]; try discriminate.
    + intros K. injection K as <-. tauto.
    + cbn [parse_s]. destruct (existsb (Z.eqb 0) s) eqn:E; [discriminate|]. cbn [bind]. intros K. injection K as <-. split; [reflexivity|]. right. exists s.
      split; [reflexivity|]. split; [reflexivity|]. rewrite <- EX. congruence.
  - intros (-> & [[-> ->]|(s & -> & -> & N)]); [reflexivity|]. cbn. destruct (existsb (Z.eqb 0) s) eqn:E; [now apply EX in E|reflexivity].
Qed.
Example C111_root_example : get_root_handle true [VStr (lit "top"%string)] = Ok (Some (lit "top"%string)) /\ get_root_handle true [VStr [97; 0]] = Err ValueError.
Proof. now split. Qed.
Print Assumptions C111_root.

(** * The function for the end of the simulation *)
Fixpoint sets (f : option value) (calls : list (list value)) : option value :=
  match calls with [] => f | a :: l => sets (fst (set_sim_event_callback f a)) l end.
(** Only the first good call counts, whatever calls are made. *)
Theorem C111_event calls : sets None calls = match filter (fun a => Nat.eqb (List.length a) 1) calls with [v] :: _ => Some v | _ => None end.
Proof.
  assert (forall l v, sets (Some v) l = Some v) as K by (induction l; intros; cbn; auto).
  induction calls as [|[|v [|w r]] l IH]; cbn in *; auto.
Qed.
Example C111_event_example : sets None [[]; [VCallable 2]; [VCallable 3]] = Some (VCallable 2).
Proof. reflexivity. Qed.
Print Assumptions C111_event.
(** A second call raises; one with wrong arguments does not, although nothing is set. *)
Theorem C111_event_end f args : snd (set_sim_event_callback f args) = match f with Some _ => Raises RuntimeError | None => Returns VNone end /\
  (f <> None -> fst (set_sim_event_callback f args) = f).
Proof. destruct f; [now split|]. destruct args as [|v []]; split; try reflexivity; now intros []. Qed.
Print Assumptions C111_event_end.

(** * The exceptions of the lookups *)
Definition is_str (v : value) : bool := match v with VStr _ => true | _ => false end.
Definition is_int (v : value) : bool := match v with VInt _ => true | _ => false end.
(** A wrong number of arguments or a wrong type is a TypeError; a NUL in a name and an unknown method are ValueErrors; numbers out of range are OverflowErrors. *)
Theorem C111_lookup_type args : 
  (match args with [n] => is_str n | [n; m] => is_str n | _ => false end = false -> get_handle_by_name args = Err TypeError) /\
  (match args with [i] => is_int i | _ => false end = false -> get_handle_by_index args = Err TypeError) /\
  (match args with [VNone] => true | [n] => is_str n | _ => false end = false -> get_root_handle true args = Err TypeError) /\
  get_root_handle false args = Err RuntimeError.
Proof.
  split; [|split; [|split]].
  - destruct args as [|v [|m [|]]]; try reflexivity; destruct v; try reflexivity; discriminate.
  - destruct args as [|v []]; try reflexivity; destruct v; try reflexivity; discriminate.
  - destruct args as [|v []]; try reflexivity; destruct v; try reflexivity; discriminate.
  - reflexivity.
Qed.
Example C111_lookup_type_example : get_handle_by_name [VInt 1] = Err TypeError /\ get_handle_by_index [VStr []] = Err TypeError /\ get_root_handle true [VInt 3] = Err TypeError.
Proof. now repeat split. Qed.
Print Assumptions C111_lookup_type.
(** The second argument. *)
Theorem C111_lookup_method (n : pystr) (m : value) : ~ In 0 n ->
  (is_int m = false -> get_handle_by_name [VStr n; m] = Err TypeError) /\
  (forall z, m = VInt z -> ~ - 2 ^ 31 <= z < 2 ^ 31 -> get_handle_by_name [VStr n; m] = Err OverflowError) /\
  (forall z, m = VInt z -> - 2 ^ 31 <= z < 2 ^ 31 -> z <> 0 -> z <> 1 -> get_handle_by_name [VStr n; m] = Err ValueError).
Proof.
  intros N. assert (existsb (Z.eqb 0) n = false) as E.
  { destruct (existsb (Z.eqb 0) n) eqn:E; [|reflexivity]. apply existsb_exists in E. destruct E as (x & I & K). apply Z.eqb_eq in K. now subst x. }
  unfold get_handle_by_name, parse_s. rewrite E. cbn [bind]. split; [|split].
  - destruct m; try reflexivity; discriminate.
  - intros z -> H. cbn [parse_i]. destruct (Z.leb_spec (- 2 ^ 31) z); [|reflexivity]. destruct (Z.ltb_spec z (2 ^ 31)); [lia|reflexivity].
  - intros z -> H A B. cbn [parse_i]. destruct (Z.leb_spec (- 2 ^ 31) z); [|lia]. destruct (Z.ltb_spec z (2 ^ 31)); [|lia]. cbn [andb bind].
    destruct (Z.ltb_spec z 0); [reflexivity|]. destruct (Z.ltb_spec 1 z); [reflexivity|lia].
Qed.
Example C111_lookup_method_example : ~ In 0 (lit "a"%string) /\ get_handle_by_name [VStr (lit "a"%string); VNone] = Err TypeError.
Proof. split; [cbn; intuition discriminate|reflexivity]. Qed.
Print Assumptions C111_lookup_method.
