(** Model of IMApFixedMargin as a classifier of its own: constructors, train and evaluate
    (/repo/subprojects/ufjfmltk-classifier/include/ufjfmltk/classifier/IMA.hpp:53-74, 366-523), over the reals.

    Simplifications: as in M_Ima, whose pass over the points is used unchanged; the clock is an oracle. flagNao1aDim and tMax have no initialiser, so a
    flag that was never set through its pointer is [None], and reading it is undefined behaviour. *)
From Coq Require Import ZArith Bool List Reals.
From Verif Require Import Base M_Data M_Point L_Vec Loop M_Kernel M_Perc M_Fixed M_Ima.
Import ListNotations.
Local Open Scope nat_scope.

(** IMA.hpp:55-60 and the inherited fields: the member w (PrimalClassifier.hpp:18), solution.w, bias, norm and margin (Solution.hpp:17-29), the flag with
    its bound, steps and ctot (Learner.hpp), maiorw and n. *)
Record imaf := mkImaf { q_w : vec; q_sw : vec; q_b : R; q_norm : R; q_margin : R; q_flag : option (option nat); q_steps : nat; q_ctot : nat; q_lw : R; q_n : nat }.

(** IMA.hpp:366-380: the constructor; [ini] is the w, bias and norm of the initial solution, whose margin is not copied. *)
Definition imaf_make (dim : nat) (ini : option (vec * R * R)) : imaf :=
  match ini with
  | Some (w, b, norm) => mkImaf w [] b norm 0%R None 0 0 0%R 0
  | None => mkImaf (repeat 0%R dim) [] 0%R 0%R 0%R None 0 0 0%R 0
  end.
(** IMA.hpp:71, 73: setting flagNao1aDim and tMax through their pointers; [None] is a flag of 0, [Some t] any other flag with the bound t. *)
Definition imaf_flag (f : option nat) (o : imaf) : imaf := mkImaf (q_w o) (q_sw o) (q_b o) (q_norm o) (q_margin o) (Some f) (q_steps o) (q_ctot o) (q_lw o) (q_n o).

(** std::vector::resize(n, 0.0), IMA.hpp:402. *)
Definition vresize (n : nat) (w : vec) : vec := firstn n w ++ repeat 0%R (n - length w).
(** IMA.hpp:400-402: the weights the training starts from. *)
Definition imaf_w (d : data R) (o : imaf) : vec := match q_sw o with [] => vresize (dim d) (q_w o) | sw => sw end.
(** Point.hpp:323-333, used in IMA.hpp:500: assigning a vector to a point overwrites its front. *)
Definition over (w sw : vec) : vec := w ++ skipn (length w) sw.

Section Train.
Variable pw : R -> R -> R.
Variable kind : qnorm.
Variable pr : params.
Variable gamma flex eps : R.
Variable d : data R.

(** IMA.hpp:405-493: the loop; the flag is only read when no other test has ended it (IMA.hpp:492). *)
Fixpoint imaf_loop (clk : nat -> bool) (flag : option (option nat)) (fuel k steps : nat) (s : fstate) (func : vec) : outcome (option (fstate * vec * nat)) :=
  if clk k then
    match fuel with
    | O => Ok None
    | S fuel' =>
        let* u := ipass pw kind pr gamma flex eps d steps (seq 0 (size d)) (f_reset s) func in
        let (s1, func1) := u in
        if Nat.eqb (f_e s1) 0 || Nat.ltb (max_it pr) (S steps) || Nat.ltb (max_up pr) (f_ctot s1) then Ok (Some (s1, func1, S steps))
        else match flag with
             | None => UB
             | Some f => if match f with Some t => Nat.ltb t (f_ctot s1) | None => false end then Ok (Some (s1, func1, S steps))
                         else imaf_loop clk flag fuel' (S k) (S steps) s1 func1
             end
    end
  else Ok (Some (s, func, steps)).

(** IMA.hpp:382-503: train(); the new object, the points' alphas and the visiting index it leaves in the dataset, and the answer. *)
Definition imaf_train (clk : nat -> bool) (o : imaf) : outcome (option (imaf * vec * list Z * bool)) :=
  let* r := imaf_loop clk (q_flag o) (S (max_it pr)) 0 (q_steps o)
              (mkF (imaf_w d o) (q_b o) (q_norm o) (map p_alpha (d_points d)) (d_index d) 0 1 (q_ctot o) (q_lw o) (q_n o)) (repeat 0%R (size d)) in
  Ok (match r with
      | None => None
      | Some (s, _, st) =>
          Some (mkImaf (f_w s) (over (f_w s) (q_sw o)) (f_b s) (f_norm s) (q_margin o) (q_flag o) st (f_ctot s) (f_lw s) (f_n s), f_al s, f_index s, Nat.eqb (f_e s) 0)
      end).
End Train.

(** IMA.hpp:505-523: evaluate(p); 0 for a point of another dimension. *)
Definition imaf_evaluate (o : imaf) (p : point R) : outcome Z :=
  if negb (Nat.eqb (length (p_x p)) (length (q_sw o))) then Ok 0%Z
  else let* f := ofold (fun f i => let* a := vget (q_sw o) i in let* x := vget (p_x p) i in Ok (f + a * x)%R) (seq 0 (length (q_sw o))) (q_b o) in
       Ok (if Rle_dec (q_margin o * q_norm o) f then 1%Z else (-1)%Z).
