(** Copies, moves and assignments of values: what a program with variables of one class should do, without
    storage.  A variable holds a value of its own, or a view on the data of another one (with what it showed when it was
    made), or it was moved from. *)
From Coq Require Import ZArith Bool List Lia Arith.
From Verif Require Import Base Ownership.
Import ListNotations.
Open Scope Z_scope.

(** the value of a block: its fields, its words and its sub-blocks; and those of the associated block *)
Definition part (C : class) : Type := P C * list double * T C.
Definition value (C : class) : Type := part C * option (part C).
Inductive holds (C : class) := Owns (v : value C) | Views (v : value C) | MovedFrom.
Arguments Owns {C}. Arguments Views {C}. Arguments MovedFrom {C}.
Definition vars (C : class) := nat -> option (holds C).
Definition no_vars {C} : vars C := fun _ => None.

(** the value built by a constructor from fields, data, and fields and data of the associated block *)
Definition built {C} (p : P C) (d : list double) (m : option (P C * list double)) : outcome (value C) :=
  m <- match m with
       | None => Ok None
       | Some (mp, md) => t <- gen C mp (View md 0 (len md)) None ;; Ok (Some (mp, md, t))
       end ;;
  p <- on_construct C p ;;
  t <- gen C p (View d 0 (len d)) (option_map snd m) ;;
  Ok ((p, d, t), m).

(** [None]: the program uses a variable that does not exist or was moved from, or creates one twice; it takes
    a view of something that is not an owner; or the constructor reads outside its data. *)
Definition vstep {C} (a : vars C) (o : op C) : option (vars C) :=
  let set := upd a in
  match o with
  | New x p d m =>
      match a x, built p d m with
      | None, Ok v => Some (set x (Some (Owns v)))
      | None, Throw _ => Some a
      | _, _ => None
      end
  | ViewOn x y p b e z =>
      match a x, a y, match z with None => Some None
                      | Some z => match a z with Some (Owns (v, None)) => Some (Some v) | _ => None end end with
      | None, Some (Owns (_, d, _, _)), Some m =>
          match (w <- read_range d b e ;; p <- on_construct C p ;; t <- gen C p (View d b e) (option_map snd m) ;; Ok ((p, w, t), m)) with
          | Ok v => Some (set x (Some (Views v)))
          | Throw _ => Some a
          | UB => None
          end
      | _, _, _ => None
      end
  | Copy x y =>
      match a x, a y with
      | None, Some MovedFrom => None
      | None, Some c => Some (set x (Some c))
      | _, _ => None
      end
  | Move x y =>
      match a x, a y with
      | None, Some MovedFrom => None
      | None, Some c => Some (upd (set y (Some MovedFrom)) x (Some c))
      | _, _ => None
      end
  | Assign x y =>
      match a x, a y with
      | Some _, Some c => if Nat.eqb x y then Some a else match c with MovedFrom => None | c => Some (set x (Some c)) end
      | _, _ => None
      end
  | MoveAssign x y =>
      match a x, a y with
      | Some _, Some c => if Nat.eqb x y then Some a else match c with MovedFrom => None | c => Some (upd (set y (Some MovedFrom)) x (Some c)) end
      | _, _ => None
      end
  | Destroy x => match a x with Some _ => Some (set x None) | None => None end
  end.
Fixpoint vrun {C} (a : vars C) (l : list (op C)) : option (vars C) :=
  match l with [] => Some a | o :: l => match vstep a o with Some a => vrun a l | None => None end end.

(** what verifyType and setSZA leave is left alone by them the next time *)
Definition settled (C : class) : Prop :=
  forall p q, on_construct C p = Ok q -> on_construct C q = Ok q /\ on_assign C q = Ok q.

(** the buffers an object owns *)
Definition of_core {C} (c : core C) : list addr := match c_own c with Some a => [a] | None => [] end.
Definition buffers {C} (o : obj C) : list addr := of_core (o_core o) ++ match o_member o with Some m => of_core m | None => [] end.

(** the variables an operation changes *)
Definition changes {C} (o : op C) (x : nat) : Prop :=
  match o with
  | New y _ _ _ | ViewOn y _ _ _ _ _ | Copy y _ | Assign y _ | Destroy y => x = y
  | Move y z | MoveAssign y z => x = y \/ x = z
  end.
