(** How Python runs a program of assignments and expressions: specification, written from the
    language reference (sections 4.2 and 6); nothing here models /repo.  What values are, and
    what attributes, calls and operators do to them and to the rest of the world, is left open. *)
From Coq Require Import String List.
Import ListNotations.
From Verif Require Import SpecPy.
Open Scope string_scope.
Open Scope list_scope.

(** Something that may raise, and that may change the rest of the world either way *)
Definition Act (S A : Type) := S -> option A * S.
Definition ret {S A} (a : A) : Act S A := fun s => (Some a, s).
Definition raise {S A} : Act S A := fun s => (None, s).
Definition after {S A B} (m : Act S A) (f : A -> Act S B) : Act S B :=
  fun s => match m s with (Some a, s') => f a s' | (None, s') => (None, s') end.

(** Python, for values V and worlds S *)
Record Machine (V S : Type) := mkMachine {
  m_const : string -> V;    (* True, False and None *)
  m_builtin : string -> option V;
  m_num : string -> V;
  m_str : string -> V;
  m_attr : V -> string -> Act S V;
  m_call : V -> list V -> list (string * V) -> Act S V;
  m_un : string -> V -> Act S V;
  m_bin : string -> V -> V -> Act S V;
  m_list : list V -> V;
  m_dict : list (V * V) -> V }.
Arguments m_const {V S}. Arguments m_builtin {V S}. Arguments m_num {V S}. Arguments m_str {V S}. Arguments m_attr {V S}.
Arguments m_call {V S}. Arguments m_un {V S}. Arguments m_bin {V S}. Arguments m_list {V S}. Arguments m_dict {V S}.

Definition act_all {S A B} (f : A -> Act S B) : list A -> Act S (list B) :=
  fix all (l : list A) : Act S (list B) :=
  match l with
  | [] => ret []
  | a :: l' => after (f a) (fun b => after (all l') (fun bs => ret (b :: bs)))
  end.
Definition python_constant (n : string) : bool := existsb (String.eqb n) ["True"; "False"; "None"].
(** The value of an expression; names are looked up with [look] *)
Fixpoint ev {V S} (m : Machine V S) (look : string -> option V) (e : Py) : Act S V :=
  match e with
  | PName n =>
      if python_constant n then ret (m_const m n)
      else match look n with Some v => ret v | None => match m_builtin m n with Some v => ret v | None => raise end end
  | PNum s => ret (m_num m s)
  | PStr s => ret (m_str m s)
  | PAttr e n => after (ev m look e) (fun v => m_attr m v n)
  | PCall f args kwargs =>
      after (ev m look f) (fun fv =>
      after (act_all (ev m look) args) (fun vs =>
      after (act_all (fun kv => after (ev m look (snd kv)) (fun v => ret (fst kv, v))) kwargs) (fun kvs => m_call m fv vs kvs)))
  | PUn op e => after (ev m look e) (m_un m op)
  | PBin op l r => after (ev m look l) (fun a => after (ev m look r) (m_bin m op a))
  | PList l => after (act_all (ev m look) l) (fun vs => ret (m_list m vs))
  | PDict kvs =>
      after (act_all (fun kv => after (ev m look (fst kv)) (fun a => after (ev m look (snd kv)) (fun b => ret (a, b)))) kvs)
            (fun vs => ret (m_dict m vs))
  end.
Definition scope (V : Type) := string -> option V.
Definition set {V} (look : scope V) (n : string) (v : V) : scope V := fun x => if (x =? n)%string then Some v else look x.
(** The value of a program: its assignments in order, then its last line *)
Fixpoint value_of_program {V S} (m : Machine V S) (look : scope V) (assignments : list (string * Py)) (result : Py) : Act S V :=
  match assignments with
  | [] => ev m look result
  | (n, e) :: later => after (ev m look e) (fun v => value_of_program m (set look n v) later result)
  end.
