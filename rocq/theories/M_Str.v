(** Model of the string functions of /repo/subprojects/ufjfmltk-core/src/Utils.cpp, .../core/Utils.hpp and of
    Data<T>::identifyFileType (.../core/Data.hpp). A std::string is a list of characters; int is 32 bits wide, signed overflow is
    undefined behaviour. The "C" locale is assumed for isspace and isdigit. The result of atod is a rational: the double
    rounding is left out. *)
From Coq Require Import ZArith QArith Ascii Bool String List.
From Verif Require Import Base.
Import ListNotations.
Local Open Scope nat_scope.

(** std::string (Utils.cpp:15-210). *)
Definition str := list ascii.
(** A char as an unsigned char (Utils.cpp:17). *)
Definition ch (c : ascii) : Z := Z.of_N (N_of_ascii c).
(** [char] is signed. Utils.cpp:33. *)
Definition sch (c : ascii) : Z := if Z.ltb (ch c) 128 then ch c else (ch c - 256)%Z.
(** Utils.cpp:44, Utils.hpp:65-76, in the "C" locale. *)
Definition isspace (c : ascii) : bool := (Z.leb 9 (ch c) && Z.leb (ch c) 13) || Z.eqb (ch c) 32.
(** Utils.cpp:17, 49, 53. *)
Definition isdigit (c : ascii) : bool := Z.leb 48 (ch c) && Z.leb (ch c) 57.
(** INT_MIN, 32 bits (Utils.cpp:20-38, 60-92). *)
Definition int_min : Z := -2147483648.
(** INT_MAX, 32 bits (Utils.cpp:20-38, 60-92). *)
Definition int_max : Z := 2147483647.
(** No overflow in an int expression (Utils.cpp:20-38, 60-92). *)
Definition int_ok (z : Z) : bool := Z.leb int_min z && Z.leb z int_max.
(** The value of a signed expression. Utils.cpp:20-38, 60-92. *)
Definition sint (z : Z) : outcome Z := if int_ok z then Ok z else UB.

(** std::find_if over a range: the suffix starting at the first element satisfying [f]. Utils.hpp:65-76. *)
Fixpoint from_first (f : ascii -> bool) (s : str) : str :=
  match s with [] => [] | c :: r => if f c then s else from_first f r end.
(** Utils.hpp:65-69. *)
Definition ltrim (s : str) : str := from_first (fun c => negb (isspace c)) s.
(** Utils.hpp:72-76: the same from the reverse iterators. *)
Definition rtrim (s : str) : str := rev (from_first (fun c => negb (isspace c)) (rev s)).
(** Utils.hpp:79-82, 97-100. *)
Definition trim (s : str) : str := rtrim (ltrim s).

(** Utils.cpp:15-18. *)
Definition is_number (s : str) : bool :=
  match s with
  | [] => false
  | _ => negb (existsb (fun c => negb (isdigit c || Ascii.eqb c "." || Ascii.eqb c "-" || Ascii.eqb c "+" || Ascii.eqb c "e")) s)
  end.

(** Utils.cpp:29-30: the first loop of stoin, [m *= 10] repeated. *)
Fixpoint pow10 (n : nat) (m : Z) : outcome Z :=
  match n with O => Ok m | S n' => let* m' := sint (m * 10) in pow10 n' m' end.
(** Utils.cpp:32-35. *)
Fixpoint stoin_digits (s : str) (m num : Z) : outcome Z :=
  match s with
  | [] => Ok num
  | c :: r =>
      let* t := sint ((sch c - 48) * m) in
      let* num' := sint (num + t) in
      stoin_digits r (Z.quot m 10) num'
  end.
(** Utils.cpp:20-38; str[0] of an empty string is the terminator. *)
Definition stoin (s : str) : outcome Z :=
  match s with
  | [] => Ok 0%Z
  | c :: r =>
      if Ascii.eqb c "0" then Ok 0%Z
      else
        let sign := Ascii.eqb c "-" in
        let body := if sign then r else s in
        let* m := pow10 (List.length body - 1) 1%Z in
        let* num := stoin_digits body m 0%Z in
        if sign then sint (num * -1) else Ok num
  end.

(** Utils.cpp:40-58: a run of digits read into [val]; [power] is multiplied by 10 for each when [frac]. Returns the rest. *)
Fixpoint digits (frac : bool) (s : str) (val : Z) (power : positive) : Z * positive * str :=
  match s with
  | c :: r => if isdigit c then digits frac r (10 * val + (ch c - 48))%Z (if frac then (power * 10)%positive else power) else (val, power, s)
  | [] => (val, power, s)
  end.
(** Utils.cpp:40-58. *)
Definition atod (s : str) : Q :=
  let s0 := from_first (fun c => negb (isspace c)) s in
  let sign := match s0 with c :: _ => if Ascii.eqb c "-" then (-1)%Z else 1%Z | [] => 1%Z end in
  let s1 := match s0 with c :: r => if Ascii.eqb c "+" || Ascii.eqb c "-" then r else s0 | [] => [] end in
  let '(v1, _, s2) := digits false s1 0%Z 1%positive in
  let s3 := match s2 with c :: r => if Ascii.eqb c "." then r else s2 | [] => [] end in
  let '(v2, p, _) := digits true s3 v1 1%positive in
  Qmake (sign * v2) p.

(** Utils.cpp:68-71: the digits of an unsigned int, least significant first (at most ten of them: [fuel] is enough, see C22). *)
Definition digit (z : Z) : ascii := ascii_of_N (Z.to_N (z + 48)).
(** Utils.cpp:68-71. *)
Fixpoint itos_digits (fuel : nat) (n1 : Z) : outcome str :=
  if Z.eqb n1 0 then Ok []
  else match fuel with
       | O => UB
       | S f => let* r := itos_digits f (n1 / 10)%Z in Ok (digit (n1 mod 10) :: r)
       end.
(** Utils.cpp:60-92: 49 characters fit in the buffer besides the terminator; the loop with the three exclusive-ors reverses it. *)
Definition itos (n : Z) : outcome str :=
  let neg := Z.ltb n 0 in
  let* n1 := if neg then sint (- n) else Ok n in
  let* b := itos_digits 49 n1 in
  let b' := if neg then b ++ ["-"%char] else b in
  if Nat.ltb 49 (List.length b') then UB
  else Ok (if Z.eqb n 0 then ["0"%char] else rev b').

(** std::string::find_first_not_of(c, pos) and find(c, pos); [None] is npos. Utils.cpp:197-210. *)
Fixpoint find_from (f : ascii -> bool) (s : str) (i : nat) : option nat :=
  match s with [] => None | c :: r => if f c then Some i else find_from f r (S i) end.
(** Used at Utils.cpp:197-210. *)
Definition find_first_not_of (s : str) (c : ascii) (pos : nat) : option nat :=
  find_from (fun x => negb (Ascii.eqb x c)) (skipn pos s) pos.
(** Used at Utils.cpp:197-210. *)
Definition find (s : str) (c : ascii) (pos : nat) : option nat := find_from (fun x => Ascii.eqb x c) (skipn pos s) pos.
(** Used at Utils.cpp:197-210. *)
Definition substr (s : str) (start stop : nat) : str := firstn (stop - start) (skipn start s).
(** Utils.cpp:197-210. [None]: the loop has not ended after [fuel] rounds. *)
Fixpoint tokenize_loop (fuel : nat) (s : str) (c : ascii) (e : option nat) : option (list str) :=
  match e with
  | None => Some []                       (* find_first_not_of from npos *)
  | Some e =>
      match find_first_not_of s c e with
      | None => Some []
      | Some start =>
          match fuel with
          | O => None
          | S f =>
              let e' := find s c start in
              let tok := substr s start (match e' with Some j => j | None => List.length s end) in
              match tokenize_loop f s c e' with Some r => Some (tok :: r) | None => None end
          end
      end
  end.
(** Utils.cpp:197-210. *)
Definition tokenize (s : str) (c : ascii) : option (list str) := tokenize_loop (S (List.length s)) s c (Some O).

(** Data.hpp:56-57. *)
Inductive ftype := TYPE_DATA | TYPE_CSV | TYPE_ARFF | TYPE_TXT | TYPE_INVALID.
(** Data.hpp:56. *)
Definition types : list str := map list_ascii_of_string ["data"; "csv"; "arff"; "txt"; "plt"]%string.
(** Data.hpp:600-616. *)
Definition ftype_of (i : nat) : ftype :=
  match i with 0 => TYPE_DATA | 1 => TYPE_CSV | 2 => TYPE_ARFF | 3 => TYPE_TXT | _ => TYPE_INVALID end.
(** Data.hpp:598-620: [rf] is the file name up to position k, reversed, and [rt] the type name, reversed: true when the whole type
    name matches before a dot. Reading before the start of the file name is undefined behaviour (the index wraps around). *)
Fixpoint match_back (rf rt : str) : outcome bool :=
  match rf with
  | [] => UB
  | c :: f' =>
      if Ascii.eqb c "." then Ok false
      else match rt with
           | [] => Ok false       (* not reached: type names are not empty *)
           | [x] => Ok (Ascii.eqb x c)
           | x :: t' => if Ascii.eqb x c then match_back f' t' else Ok false
           end
  end.
(** Data.hpp:596-622: the types in order. The test on the last character is the first one of [match_back]. *)
Fixpoint match_types (rf : str) (i : nat) (ts : list str) : outcome (option nat) :=
  match ts with
  | [] => Ok None
  | t :: r => let* b := match_back rf (rev t) in if b then Ok (Some i) else match_types rf (S i) r
  end.
(** Data.hpp:592-626: k runs from the last character down to the last dot; [k >= 0] always holds for a size_t. *)
Fixpoint identify_loop (rf : str) : outcome ftype :=
  match rf with
  | [] => UB
  | c :: f' =>
      if Ascii.eqb c "." then Ok TYPE_INVALID
      else let* m := match_types rf 0 types in
           match m with Some i => Ok (ftype_of i) | None => identify_loop f' end
  end.
(** Data.hpp:592-626. *)
Definition identifyFileType (file : str) : outcome ftype := identify_loop (rev file).
