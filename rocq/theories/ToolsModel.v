(** Models of cocotb_tools/_env.py, cocotb/_init.py (plusargs), cocotb_tools/_vendor/distutils_version.py and
    cocotb_tools/sim_versions.py. *)
From Verif Require Import Base TextModel.
From Coq Require Import String.
Open Scope Z_scope.

(** * Environment variables. The environment variable is given by its value, [None] if not set. *)

(** _env.py:14-17 [TRUE], [FALSE]. *)
Definition TRUE : list pystr := map lit ["1"; "yes"; "y"; "on"; "true"; "enable"]%string.
Definition FALSE : list pystr := map lit ["0"; "no"; "n"; "off"; "false"; "disable"]%string.

(** Python's [a or b] on strings. *)
Definition or_str (a b : pystr) : pystr := match a with [] => b | _ => a end.

(** _env.py:33-43 [get_str]. *)
Definition get_str (value : option pystr) (default : option pystr) : pystr :=
  or_str (or_str (strip (match value with Some v => v | None => [] end))
                 (match default with Some d => d | None => [] end)) [].

(** _env.py:77-94 [as_bool]. *)
Definition as_bool (value : pystr) : result bool :=
  let value := py_lower value in
  if one_of value TRUE then Ok true
  else if one_of value FALSE then Ok false
  else Err ValueError.

(** _env.py:46-74 [get_bool]; the ValueError is replaced by another ValueError. *)
Definition get_bool (value : option pystr) (default : option bool) : result bool :=
  let value := get_str value None in
  match value with
  | [] => Ok (match default with Some b => b | None => false end)
  | _ => as_bool value
  end.

(** _env.py:97-116 [get_list], for a one-character separator (all callers use the default ","). *)
Definition get_list (value : option pystr) (default : option (list pystr)) (sep : Z) : list pystr :=
  let items := filter (fun s => match s with [] => false | _ => true end)
                      (map strip (split sep (get_str value None))) in
  match items with
  | [] => match default with Some d => d | None => [] end
  | _ => items
  end.

(** _env.py:119-129 [get_int]. *)
Definition get_int (value : option pystr) (default : option Z) : result Z :=
  match get_str value None with
  | [] => Ok (match default with Some d => d | None => 0 end)
  | s => py_int10 s
  end.

(** * Plusargs *)
Inductive plusval := PTrue | PStr (s : pystr).

(** _init.py:67-76 [_process_plusargs]: one option. *)
Definition plusarg (d : list (pystr * plusval)) (option : pystr) : list (pystr * plusval) :=
  match option with
  | c :: rest =>
      if c =? 43 then
        match split_once 61 rest with
        | Some (name, value) => dict_set d name (PStr value)
        | None => dict_set d rest PTrue
        end
      else d
  | [] => d
  end.
Definition plusargs (argv : list pystr) : list (pystr * plusval) := fold_left plusarg argv [].

(** * Versions *)

(** distutils_version.py:301 [component_re] and 308-321 [parse]: digits are one component, lower-case letters are
    one, "." separates, anything between is one component. Components of digits become numbers.
    Simplifications: [\d] is ASCII only; [int()] refuses more than 4300 digits, which is ignored. *)
Inductive comp := CNum (n : Z) | CStr (s : pystr).
Inductive cclass := KDigit | KLetter | KDot | KOther.
Definition class_of (c : Z) : cclass :=
  if is_digit c then KDigit
  else if (97 <=? c) && (c <=? 122) then KLetter
  else if c =? 46 then KDot
  else KOther.
Definition class_eqb (a b : cclass) : bool :=
  match a, b with
  | KDigit, KDigit | KLetter, KLetter | KDot, KDot | KOther, KOther => true
  | _, _ => false
  end.
(** The maximal runs of one class. *)
Fixpoint runs_of (s : pystr) : list (cclass * pystr) :=
  match s with
  | [] => []
  | c :: s' =>
      match runs_of s' with
      | (k, r) :: rest =>
          if class_eqb (class_of c) k then (k, c :: r) :: rest else (class_of c, [c]) :: (k, r) :: rest
      | [] => [(class_of c, [c])]
      end
  end.
Definition num_of (s : pystr) : Z := fold_left (fun acc c => 10 * acc + (c - 48)) s 0.
Definition loose_parse (s : pystr) : list comp :=
  flat_map (fun '(k, r) => match k with
                           | KDigit => [CNum (num_of r)]
                           | KLetter | KOther => [CStr r]
                           | KDot => []
                           end) (runs_of s).

(** [Version.__init__] with an empty string leaves no [version] attribute. *)
Definition mk_loose (s : pystr) : option (list comp) :=
  match s with [] => None | _ => Some (loose_parse s) end.
(** sim_versions.py:90-101 [QuestaVersion.parse]: the part before the first space. *)
Definition mk_questa (s : pystr) : option (list comp) :=
  match s with
  | [] => None
  | _ => Some (loose_parse (match split_once 32 s with Some (a, _) => a | None => s end))
  end.

(** Comparison of [str]: by code points. *)
Fixpoint str_cmp (a b : pystr) : comparison :=
  match a, b with
  | [], [] => Eq
  | [], _ :: _ => Lt
  | _ :: _, [] => Gt
  | x :: a', y :: b' => match Z.compare x y with Eq => str_cmp a' b' | c => c end
  end.
(** [<] of two components; [int] and [str] cannot be compared. *)
Definition comp_cmp (a b : comp) : result comparison :=
  match a, b with
  | CNum x, CNum y => Ok (Z.compare x y)
  | CStr x, CStr y => Ok (str_cmp x y)
  | _, _ => Err TypeError
  end.
Definition comp_eqb (a b : comp) : bool :=
  match a, b with
  | CNum x, CNum y => x =? y
  | CStr x, CStr y => pystr_eqb x y
  | _, _ => false
  end.
(** Comparison of lists: the first pair which is not equal decides, then the length. *)
Fixpoint list_cmp (a b : list comp) : result comparison :=
  match a, b with
  | [], [] => Ok Eq
  | [], _ :: _ => Ok Lt
  | _ :: _, [] => Ok Gt
  | x :: a', y :: b' => if comp_eqb x y then list_cmp a' b' else comp_cmp x y
  end.
(** distutils_version.py:332-343 [LooseVersion._cmp] of two instances. *)
Definition loose_cmp (a b : option (list comp)) : result comparison :=
  match a, b with
  | Some a, Some b => list_cmp a b
  | _, _ => Err AttributeError
  end.

(** distutils_version.py:144-151 [StrictVersion]: the numbers and the pre-release tag (letter, number). *)
Record strict := Strict { sv_major : Z; sv_minor : Z; sv_patch : Z; sv_pre : option (Z * Z) }.
(** The maximal leading digits. *)
Fixpoint digits (s : pystr) : pystr * pystr :=
  match s with
  | c :: s' => if is_digit c then let '(d, r) := digits s' in (c :: d, r) else ([], s)
  | [] => ([], [])
  end.
Definition number (s : pystr) : option (Z * pystr) :=
  match digits s with
  | ([], _) => None
  | (d, r) => Some (num_of d, r)
  end.
(** distutils_version.py:131-132 [version_re] and 135-151 [parse]. *)
Definition strict_parse (s : pystr) : result strict :=
  let end_ (r : pystr) (v : strict) := match r with [] => Ok v | [10] => Ok v | _ => Err ValueError end in
  let pre (r : pystr) (a b c : Z) :=
    match r with
    | x :: r' => if (x =? 97) || (x =? 98)
                 then match number r' with
                      | Some (n, r'') => end_ r'' (Strict a b c (Some (x, n)))
                      | None => Err ValueError
                      end
                 else end_ r (Strict a b c None)
    | [] => end_ r (Strict a b c None)
    end in
  match number s with
  | Some (major, x :: r) =>
      if x =? 46 then
        match number r with
        | Some (minor, y :: r') =>
            if y =? 46 then
              match number r' with
              | Some (patch, r'') => pre r'' major minor patch
              | None => Err ValueError
              end
            else pre (y :: r') major minor 0
        | Some (minor, []) => pre [] major minor 0
        | None => Err ValueError
        end
      else Err ValueError
  | _ => Err ValueError
  end.
(** Comparison of the tuples of numbers. *)
Definition nums_cmp (a b : strict) : comparison :=
  match Z.compare (sv_major a) (sv_major b) with
  | Eq => match Z.compare (sv_minor a) (sv_minor b) with
          | Eq => Z.compare (sv_patch a) (sv_patch b)
          | c => c
          end
  | c => c
  end.
(** distutils_version.py:167-200 [StrictVersion._cmp]. *)
Definition strict_cmp (a b : strict) : comparison :=
  match nums_cmp a b with
  | Eq =>
      match sv_pre a, sv_pre b with
      | None, None => Eq
      | Some _, None => Lt
      | None, Some _ => Gt
      | Some (x, n), Some (y, m) => match Z.compare x y with Eq => Z.compare n m | c => c end
      end
  | c => c
  end.
