(** Proofs about [BuildModel]. *)
From Verif Require Import Base TextModel ToolsProofs QuoteModel RunnerModel BuildModel BuildSpec.
From Coq Require Import String.
Open Scope Z_scope.

Lemma BOk_inj {A} (a b : A) : BOk a = BOk b -> a = b.
Proof. intro H. now injection H. Qed.
Lemma bbind_ok {A B} (m : bres A) (f : A -> bres B) b : bbind m f = BOk b -> exists a, m = BOk a /\ f a = BOk b.
Proof. destruct m; cbn; [eauto|discriminate]. Qed.
Lemma check_ok c u : check c = BOk u -> c = true.
Proof. destruct c; [reflexivity|discriminate]. Qed.

Lemma contig_here {A} (xs l : list A) : contiguous xs (xs ++ l).
Proof. exists [], l. reflexivity. Qed.
Lemma contig_all {A} (xs : list A) : contiguous xs xs.
Proof. exists [], []. cbn. now rewrite app_nil_r. Qed.
Lemma contig_app {A} (xs a l : list A) : contiguous xs l -> contiguous xs (a ++ l).
Proof. intros (x & y & ->). exists (a ++ x), y. now rewrite <- app_assoc. Qed.
Lemma contig_left {A} (xs a l : list A) : contiguous xs a -> contiguous xs (a ++ l).
Proof. intros (x & y & ->). exists x, (y ++ l). now rewrite <- !app_assoc. Qed.
Lemma contig_cons {A} (xs : list A) a l : contiguous xs l -> contiguous xs (a :: l).
Proof. intros (x & y & ->). exists (a :: x), y. reflexivity. Qed.
Ltac contig := repeat first [apply contig_here | apply contig_all | apply contig_app].

Lemma tag_eqb_eq a b : tag_eqb a b = true <-> a = b.
Proof. destruct a, b; cbn; split; congruence. Qed.
Lemma fits_meant t l : t <> TControl -> args_for t l = meant_for t l.
Proof.
  intro H. unfold args_for, values, meant_for. f_equal. apply filter_ext. intros [s [u|]]; cbn; [|destruct t; reflexivity].
  destruct u, t; cbn; congruence.
Qed.

Definition supports_all (s : sim) (b : build_in) : Prop := Forall (fun x => accepts s (snd x) = true) (considered s b).
Lemma only_verilog l : forallb (fun s : source => tag_eqb (snd s) TVerilog) l = true <->
  Forall (fun x : source => match snd x with TVerilog => true | _ => false end = true) l.
Proof. rewrite forallb_forall, Forall_forall. split; intros H x I; specialize (H x I); destruct (snd x); assumption. Qed.

(** Time stamps. *)
Lemma newest_spec mtime deps : forall d r, newest mtime d deps = BOk r <->
  (forall p, In p deps -> mtime p <> None) /\ d <= r /\ (forall p t, In p deps -> mtime p = Some t -> t <= r) /\
  (r = d \/ exists p, In p deps /\ mtime p = Some r).
Proof.
  induction deps as [|x deps IH]; intros d r; cbn [newest].
  - split; [intro H; injection H as <-|].
    + split; [intros p []|]. split; [lia|]. split; [intros p t []|auto].
    + intros (_ & _ & _ & [->|(p & [] & _)]). reflexivity.
  - destruct (mtime x) as [t|] eqn:E.
    + rewrite IH. split.
      * intros (A & B & C & D). split; [intros p [<-|I]; [congruence|auto]|]. split; [lia|].
        split; [intros p u [<-|I] X; [assert (u = t) by congruence; lia|eauto]|].
        destruct D as [D|(p & I & X)]; [|right; exists p; split; [right|]; assumption].
        destruct (Z.max_spec t d) as [[_ M]|[_ M]]; rewrite M in D; [auto|]. right. exists x. split; [left; reflexivity|congruence].
      * intros (A & B & C & D). assert (t <= r) by (apply (C x); [left; reflexivity|assumption]).
        split; [intros p I; apply A; right; assumption|]. split; [lia|].
        split; [intros p u I X; apply (C p); [right; assumption|assumption]|].
        destruct D as [D|(p & [<-|I] & X)]; [left; lia|left; assert (r = t) by congruence; lia|right; exists p; split; assumption].
    + split; [discriminate|]. intros (A & _). exfalso. apply (A x); [left; reflexivity|assumption].
Qed.
Lemma newest_total mtime deps : forall d, (forall p, In p deps -> mtime p <> None) -> exists r, newest mtime d deps = BOk r.
Proof.
  induction deps as [|x deps IH]; intros d H; cbn [newest]; [eauto|].
  destruct (mtime x) eqn:E; [|exfalso; apply (H x); [left; reflexivity|assumption]]. apply IH. intros p I. apply H. right. assumption.
Qed.
Lemma outdated_false mtime out deps : outdated mtime out deps = BOk false ->
  exists t, mtime out = Some t /\ 0 <= t /\ forall p, In p deps -> exists u, mtime p = Some u /\ u <= t.
Proof.
  unfold outdated. destruct (mtime out) as [t|]; [|discriminate]. intro H.
  apply bbind_ok in H as (r & H & E). apply BOk_inj in E. apply Z.ltb_ge in E. apply newest_spec in H as (A & B & C & _).
  exists t. split; [reflexivity|]. split; [lia|]. intros p I. destruct (mtime p) as [u|] eqn:M; [|exfalso; apply (A p I M)].
  exists u. split; [reflexivity|]. specialize (C p u I M). lia.
Qed.
Lemma outdated_false_conv mtime out deps t : mtime out = Some t -> 0 <= t ->
  (forall p, In p deps -> exists u, mtime p = Some u /\ u <= t) -> outdated mtime out deps = BOk false.
Proof.
  intros M T H. unfold outdated. rewrite M.
  destruct (newest_total mtime deps 0) as [r R]; [intros p I; destruct (H p I) as (u & -> & _); discriminate|].
  rewrite R. cbn [bbind]. f_equal. apply Z.ltb_ge. apply newest_spec in R as (_ & _ & _ & [->|(p & I & X)]); [assumption|].
  destruct (H p I) as (u & U & L). congruence.
Qed.

(** File names. *)
Lemma split_last_part c a b : ~ In c b -> exists l, split c (a ++ c :: b) = l ++ [b].
Proof.
  intro H. assert (W : split c b = [b]).
  { clear a. induction b as [|x b IH]; [reflexivity|]. cbn [split]. destruct (x =? c) eqn:E.
    - apply Z.eqb_eq in E. exfalso. apply H. left. assumption.
    - rewrite IH; [reflexivity|]. intro. apply H. right. assumption. }
  induction a as [|x a (l & IH)]; cbn [app split].
  - rewrite Z.eqb_refl, W. exists [[]]. reflexivity.
  - destruct (x =? c); [rewrite IH; exists ([] :: l); reflexivity|]. rewrite IH.
    destruct l as [|w l]; cbn [app]; [|exists ((x :: w) :: l); reflexivity].
    exfalso. clear -IH. assert (X : (2 <= List.length (split c (a ++ c :: b)))%nat).
    { clear IH. induction a as [|y a IH]; cbn [app split].
      - rewrite Z.eqb_refl. destruct (split c b) eqn:E; cbn [List.length]; [|lia]. destruct b as [|z b]; cbn [split] in E; [discriminate|].
        destruct (z =? c); [discriminate|]. destruct (split c b); discriminate.
      - destruct (y =? c); cbn [List.length]; [lia|]. destruct (split c (a ++ c :: b)); cbn [List.length] in *; lia. }
    rewrite IH in X. cbn in X. lia.
Qed.
Lemma path_name_eq dir name : ~ In 47 name -> name <> [] -> name <> [46] -> path_name (dir ++ 47 :: name) = name.
Proof.
  intros H N D. unfold path_name. destruct (split_last_part 47 dir name H) as [l ->].
  rewrite filter_app. cbn [filter].
  replace (match name with [] => false | [46] => false | _ => true end) with true.
  - apply last_last.
  - destruct name as [|x [|y name]]; [congruence| |destruct x as [|p|p]; try reflexivity; repeat (destruct p as [p|p|]; try reflexivity)].
    destruct (Z.eq_dec x 46) as [->|E]; [congruence|].
    destruct x as [|p|p]; try reflexivity; repeat (destruct p as [p|p|]; try reflexivity); congruence.
Qed.
Lemma last_dot_app base ext : ~ In 46 ext -> last_dot (base ++ 46 :: ext) = Some (base, ext).
Proof.
  intro H. induction base as [|c base IH]; cbn [app last_dot].
  - assert (E : last_dot ext = None).
    { induction ext as [|x ext IH]; [reflexivity|]. cbn [last_dot]. rewrite IH by (intro; apply H; right; assumption).
      destruct (x =? 46) eqn:E; [apply Z.eqb_eq in E; exfalso; apply H; left; assumption|reflexivity]. }
    rewrite E, Z.eqb_refl. reflexivity.
  - rewrite IH. reflexivity.
Qed.

(** Source lists. *)
Lemma Forall2_weaken {A B} (P Q : A -> B -> Prop) l r : (forall a b, P a b -> Q a b) -> Forall2 P l r -> Forall2 Q l r.
Proof. intros H F. induction F; constructor; auto. Qed.
Lemma set_list_ok allowed abs l : forall r, set_list allowed abs l = BOk r ->
  Forall2 (fun a s => fst s = abs (path_of a) /\ kind_of a = BOk (snd s) /\ forall t p, a = Tagged t p -> allowed t = true) l r.
Proof.
  induction l as [|a l IH]; intros r H; cbn [set_list] in H.
  - apply BOk_inj in H. subst. constructor.
  - apply bbind_ok in H as (x & X & H). apply bbind_ok in H as (xs & XS & H). apply BOk_inj in H. subst r.
    constructor; [|now apply IH]. destruct a as [p|t p].
    + apply bbind_ok in X as (t & T & X). apply BOk_inj in X. subst x. cbn. split; [reflexivity|]. split; [assumption|discriminate].
    + destruct (allowed t) eqn:A; [|discriminate]. apply BOk_inj in X. subst x. cbn. split; [reflexivity|]. split; [reflexivity|].
      intros t' p' E. injection E as <- _. assumption.
Qed.
Lemma questa_sources_ok b l : forall cs, questa_sources b l = BOk cs ->
  Forall2 (fun src c => snd src <> TControl /\ hd [] c = (if tag_eqb (snd src) TVHDL then lit "vcom" else lit "vlog") /\
    exists before, c = before ++ meant_for (snd src) (b_args b) ++ [fst src]) l cs.
Proof.
  induction l as [|a l IH]; intros r H; cbn [questa_sources] in H.
  - apply BOk_inj in H. subst. constructor.
  - apply bbind_ok in H as (x & X & H). apply bbind_ok in H as (xs & XS & H). apply BOk_inj in H. subst r.
    constructor; [|now apply IH]. destruct a as [p t]. cbn [snd fst] in *. destruct t; [| |discriminate].
    + apply BOk_inj in X. subst x. split; [discriminate|]. split; [reflexivity|]. rewrite fits_meant by discriminate.
      exists ([lit "vlog"] ++ (if b_verbose b then [] else [lit "-quiet"]) ++ (if b_always b then [] else [lit "-incr"]) ++
        [lit "-work"; b_library b; lit "-sv"] ++ assigned (lit "+define+") (b_defines b) ++ prefixed "+incdir+" (b_includes b)).
      rewrite <- !app_assoc. reflexivity.
    + apply BOk_inj in X. subst x. split; [discriminate|]. split; [reflexivity|]. rewrite fits_meant by discriminate.
      exists ([lit "vcom"] ++ (if b_verbose b then [] else [lit "-quiet"]) ++ [lit "-work"; b_library b]).
      rewrite <- !app_assoc. reflexivity.
Qed.
Lemma aldec_sources_ok m b l : forall cs, aldec_sources m b l = BOk cs ->
  Forall2 (fun src line => snd src <> TControl /\ exists mid, line = (if tag_eqb (snd src) TVHDL then lit "acom " else lit "alog ") ++ mid ++
    join [32] (meant_for (snd src) (b_args b)) ++ [32] ++ as_tcl_value (fst src)) l cs.
Proof.
  induction l as [|a l IH]; intros r H; cbn [aldec_sources] in H.
  - apply BOk_inj in H. subst. constructor.
  - apply bbind_ok in H as (x & X & H). apply bbind_ok in H as (xs & XS & H). apply BOk_inj in H. subst r.
    constructor; [|now apply IH]. destruct a as [p t]. cbn [snd fst] in *. destruct t; [| |discriminate].
    + apply BOk_inj in X. subst x. split; [discriminate|]. rewrite fits_meant by discriminate. cbn [tag_eqb].
      exists (lit "-work " ++ as_tcl_value (b_library b) ++ lit " -pli " ++ as_tcl_value (m_lib m "vpi" "riviera") ++ lit " -sv " ++
        join [32] (map (fun nv => lit "'+define+" ++ fst nv ++ lit "=" ++ snd nv ++ lit "'") (b_defines b)) ++ [32] ++
        join [32] (map (fun i => lit "+incdir+" ++ as_tcl_value i) (b_includes b)) ++ [32]).
      change (lit "alog -work ") with (lit "alog " ++ lit "-work "). rewrite <- !app_assoc. reflexivity.
    + apply BOk_inj in X. subst x. split; [discriminate|]. rewrite fits_meant by discriminate. cbn [tag_eqb].
      exists (lit "-work " ++ as_tcl_value (b_library b) ++ [32]).
      change (lit "acom -work ") with (lit "acom " ++ lit "-work "). rewrite <- !app_assoc. reflexivity.
Qed.
Ltac bok H := repeat match type of H with
  | bbind _ _ = BOk _ => let a := fresh "v" in let X := fresh "X" in apply bbind_ok in H as (a & X & H); cbv beta zeta in H
  | match ?o with Some _ => _ | None => BErr _ end = BOk _ => let E := fresh "E" in destruct o eqn:E; [|discriminate H]
  | (if ?c then BErr _ else _) = BOk _ => let E := fresh "E" in destruct c eqn:E; [discriminate H|]
  end.

Ltac tok H := unfold no_pre in H; bok H; repeat match type of H with
  | match ?o with Some _ => BErr _ | None => _ end = BOk _ => let E := fresh "E" in destruct o eqn:E; [discriminate H|]
  | match ?o with [] => BErr _ | _ :: _ => _ end = BOk _ => let E := fresh "E" in destruct o eqn:E; [discriminate H|]; bok H
  | bbind _ _ = BOk _ => let a := fresh "v" in let X := fresh "X" in apply bbind_ok in H as (a & X & H); cbv beta zeta in H
  end.
Lemma pair_inj {A B} (a c : A) (b d : B) : (a, b) = (c, d) -> a = c /\ b = d.
Proof. intro H. now injection H. Qed.

Lemma last_snoc {A} (xs : list A) : forall x, exists ys, x :: xs = ys ++ [last xs x].
Proof.
  induction xs as [|y xs IH]; intro x; [exists []; reflexivity|]. destruct (IH y) as [ys E]. exists (x :: ys). cbn [app]. f_equal.
  replace (last (y :: xs) x) with (last xs y); [assumption|]. clear. revert y. induction xs as [|z xs IH]; intro y; [reflexivity|].
  change (last (y :: z :: xs) x) with (last (z :: xs) x). rewrite <- IH. clear. revert z. induction xs; intro z; [reflexivity|]. cbn [last] in *.
  destruct xs; [reflexivity|]. apply (IHxs z).
Qed.
Lemma ends_here {A} (s : list A) : exists mid, s = mid ++ s.
Proof. exists []. reflexivity. Qed.
Lemma ends_app {A} (s a l : list A) : (exists mid, l = mid ++ s) -> exists mid, a ++ l = mid ++ s.
Proof. intros [mid ->]. exists (a ++ mid). apply app_assoc. Qed.
Lemma wrapped {A} (p s l : list A) : (exists mid, l = mid ++ s) -> exists mid, p ++ l = p ++ mid ++ s.
Proof. intros [mid ->]. exists mid. reflexivity. Qed.
