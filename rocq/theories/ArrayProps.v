(** Property theorems C04-C06: cocotb.types.Array, for every element type. *)
From Coq Require Import String.
From Verif Require Import Base RangeModel RangeSpec RangeProofs ArrayModel ArraySpec ArrayProofs.
Open Scope Z_scope.

(** * C04 *)

(** Reading label [i] gives the element paired with it; it succeeds exactly on the array's labels. *)
Theorem C04_array_get A (a : array A) i : is_array a ->
  array_get a i = match lookup i (assoc a) with Some x => Ok x | None => Err IndexError end /\
  ((exists x, array_get a i = Ok x) <-> In i (range_iter (a_range a))).
Proof. exact (C04_get_pf a i). Qed.
Print Assumptions C04_array_get.

(** Writing label [i]: changes that label only, succeeds exactly on labels, else nothing changes. *)
Theorem C04_array_set A (a : array A) i x : is_array a ->
  match array_set a i x with
  | (a', None) =>
      In i (range_iter (a_range a)) /\ is_array a' /\ a_range a' = a_range a /\
      length (a_value a') = length (a_value a) /\
      array_get a' i = Ok x /\ (forall j, j <> i -> array_get a' j = array_get a j)
  | (a', Some e) => e = IndexError /\ ~ In i (range_iter (a_range a)) /\ a' = a
  end.
Proof. exact (C04_set_pf a i x). Qed.
Print Assumptions C04_array_set.

(** Writing back what was read changes nothing. *)
Theorem C04_array_get_set A (a : array A) i x :
  is_array a -> array_get a i = Ok x -> array_set a i x = (a, None).
Proof. exact (C04_get_set_pf a i x). Qed.
Print Assumptions C04_array_get_set.

(** Array("abcd", Range(2, 'downto', -1)): characters as code points. *)
Definition ex_array : array Z := Array [97; 98; 99; 100] (PyRange 2 (-2) (-1)).
Example C04_ex : is_array ex_array /\ array_get ex_array (-1) = Ok 100 /\
  array_get ex_array 2 = Ok 97 /\ array_get ex_array 3 = Err IndexError.
Proof.
  split; [|repeat split; reflexivity].
  exists [97; 98; 99; 100], (RRange (PyRange 2 (-2) (-1))). split; [|reflexivity].
  exists 2, (DStr (lit "downto")), (Some (-1)). reflexivity.
Qed.

(** * C05 *)

Theorem C05_array_getslice A (a : array A) st en hs : is_array a ->
  match array_getslice a st en hs with
  | Ok b =>
      hs = false /\ ordered_labels a (lo a st) (hi a en) /\ is_array b /\
      left_of (a_range b) = lo a st /\ right_of (a_range b) = hi a en /\
      direction_of (a_range b) = direction_of (a_range a) /\
      (forall i, In i (range_iter (a_range b)) -> array_get b i = array_get a i)
  | Err e => e = IndexError /\ ~ (hs = false /\ ordered_labels a (lo a st) (hi a en))
  end.
Proof. exact (C05_getslice_pf a st en hs). Qed.
Print Assumptions C05_array_getslice.

Theorem C05_array_setslice A (a : array A) st en hs vs : is_array a ->
  match array_setslice a st en hs vs with
  | (b, None) =>
      hs = false /\ ordered_labels a (lo a st) (hi a en) /\ is_array b /\ a_range b = a_range a /\
      exists d, direction_of (a_range a) = Ok (dir_name d) /\
        length vs = length (span (lo a st) d (hi a en)) /\
        forall i, array_get b i =
          match pos_of i (span (lo a st) d (hi a en)) with
          | Some k => match nth_error vs k with Some x => Ok x | None => Err IndexError end
          | None => array_get a i
          end
  | (b, Some e) =>
      b = a /\ ((e = IndexError /\ ~ (hs = false /\ ordered_labels a (lo a st) (hi a en))) \/
                (e = ValueError /\ forall d, direction_of (a_range a) = Ok (dir_name d) ->
                   length vs <> length (span (lo a st) d (hi a en))))
  end.
Proof. exact (C05_setslice_pf a st en hs vs). Qed.
Print Assumptions C05_array_setslice.

(** a[:] is a for non-empty arrays... *)
Theorem C05_array_full_slice A (a : array A) : is_array a -> a_value a <> [] ->
  exists b, array_getslice a None None false = Ok b /\ a_value b = a_value a /\
            range_iter (a_range b) = range_iter (a_range a).
Proof. exact (C05_full_slice_pf a). Qed.
Print Assumptions C05_array_full_slice.

(** ... and raises IndexError for every empty array (where list and str would return a copy). *)
Theorem C05_array_empty_slice A (a : array A) : is_array a -> a_value a = [] ->
  array_getslice a None None false = Err IndexError.
Proof. exact (C05_empty_slice_pf a). Qed.
Print Assumptions C05_array_empty_slice.

Example C05_ex :
  array_getslice ex_array (Some 1) (Some 0) false = Ok (Array [98; 99] (PyRange 1 (-1) (-1))) /\
  array_setslice ex_array None (Some 1) false [1; 2] = (Array [1; 2; 99; 100] (PyRange 2 (-2) (-1)), None) /\
  array_getslice ex_array (Some 0) (Some 1) false = Err IndexError /\
  exists e : array Z, is_array e /\ a_value e = [].
Proof.
  repeat split; try reflexivity. exists (Array [] (PyRange 0 0 1)). split; [|reflexivity].
  exists [], RNone. split; [exact I|reflexivity].
Qed.

(** * C06 *)

Theorem C06_array_construct A (v : list A) rg :
  match rg with RRange r => is_range r | _ => True end ->
  match mk_array v rg with
  | Ok a => a_value a = v /\ py_len v = range_len (a_range a) /\
            match rg with
            | RNone => range_iter (a_range a) = span 0 To (py_len v - 1)
            | RInt n => range_iter (a_range a) = span 0 To (n - 1)
            | RRange r => a_range a = r
            end
  | Err e => e = ValueError /\
             match rg with
             | RNone => False
             | RInt n => py_len v <> Z.max 0 n
             | RRange r => py_len v <> range_len r
             end
  end.
Proof. exact (C06_mk_pf v rg). Qed.
Print Assumptions C06_array_construct.

Theorem C06_array_set_range A (a : array A) r : is_array a -> is_range r ->
  match array_set_range a r with
  | (b, None) => range_len r = py_len (a_value a) /\ a_range b = r /\ a_value b = a_value a /\ is_array b
  | (b, Some e) => e = ValueError /\ range_len r <> py_len (a_value a) /\ b = a
  end.
Proof. exact (C06_set_range_pf a r). Qed.
Print Assumptions C06_array_set_range.

(** Equality ignores the range. *)
Theorem C06_array_eq A (eqb : A -> A -> bool) (Heq : forall x y, eqb x y = true <-> x = y) a b :
  array_eqb eqb a b = true <-> a_value a = a_value b.
Proof. exact (C06_eq_pf eqb Heq a b). Qed.
Print Assumptions C06_array_eq.

Theorem C06_array_members A (eqb : A -> A -> bool) (Heq : forall x y, eqb x y = true <-> x = y) a x :
  array_reversed a = rev (array_iter a) /\
  (array_contains eqb a x = true <-> In x (array_iter a)) /\
  array_count eqb a x = Z.of_nat (length (filter (fun y => eqb y x) (array_iter a))).
Proof. exact (C06_members_pf eqb Heq a x). Qed.
Print Assumptions C06_array_members.

(** [index] finds the first label, in array order, inside the inclusive window start..stop,
    provided the window's labels belong to the array (otherwise self[i] may raise IndexError). *)
Theorem C06_array_index A (eqb : A -> A -> bool) (Heq : forall x y, eqb x y = true <-> x = y)
  (a : array A) x st en : is_array a ->
  (forall i, direction_of (a_range a) = Ok (dir_name To) -> lo a st <= i <= hi a en -> In i (range_iter (a_range a))) ->
  (forall i, direction_of (a_range a) = Ok (dir_name Downto) -> hi a en <= i <= lo a st -> In i (range_iter (a_range a))) ->
  exists d, direction_of (a_range a) = Ok (dir_name d) /\
  match array_index eqb a x st en with
  | Ok k => exists pre post, span (lo a st) d (hi a en) = pre ++ k :: post /\
              array_get a k = Ok x /\ (forall j, In j pre -> array_get a j <> Ok x)
  | Err e => e = ValueError /\ forall j, In j (span (lo a st) d (hi a en)) -> array_get a j <> Ok x
  end.
Proof. exact (C06_index_pf eqb Heq a x st en). Qed.
Print Assumptions C06_array_index.

Example C06_ex :
  array_index Z.eqb ex_array 99 None None = Ok 0 /\
  array_index Z.eqb ex_array 97 (Some 1) None = Err ValueError /\
  array_count Z.eqb ex_array 98 = 1 /\
  (forall i, direction_of (a_range ex_array) = Ok (dir_name Downto) ->
     hi ex_array None <= i <= lo ex_array (Some 1) -> In i (range_iter (a_range ex_array))) /\
  snd (array_set_range ex_array (PyRange 0 4 1)) = None.
Proof.
  repeat split; try reflexivity. intros i _ H.
  change (-1 <= i <= 1) in H. change (In i [2; 1; 0; -1]). cbn [In]. lia.
Qed.

(** Outside that condition the answer can be IndexError instead of ValueError:
    Array("abcd", Range(2,'downto',-1)).index("z", 3). *)
Theorem C06_array_index_window_refuted :
  exists (a : array Z) x st en, is_array a /\ array_index Z.eqb a x st en = Err IndexError.
Proof. exists ex_array, 122, (Some 3), None. split; [exact (proj1 C04_ex)|reflexivity]. Qed.
Print Assumptions C06_array_index_window_refuted.
