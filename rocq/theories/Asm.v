(** * Asm.v -- a small register machine in which the assembly code of the
    repository is expressed.

    Machine words are numbers.  An instruction of a real processor is
    translated (AsmArm.v, AsmAvr.v) to assignments of the form "register :=
    word expression", to stack operations, and to loads and stores relative
    to one pointer argument.  The machine has no flags: instructions whose
    flag results are used are translated together with their consumer. *)
From Coq Require Import NArith List.
From Verif Require Import Words.
Import ListNotations.
Local Open Scope N_scope.

(** Word expressions; [w] is a width in bits. *)
Inductive wx :=
| Reg (r : nat)                (** value of register [r] *)
| Cst (n : N)
| Xor (a b : wx) | And (a b : wx) | Or (a b : wx)
| Not (w : N) (a : wx)
| Shl (w : N) (a : wx) (n : N) | Shr (a : wx) (n : N)
| Ror (w : N) (a : wx) (n : N)  (** rotate right by the constant [n < w] *)
| RorV (w : N) (a b : wx)       (** rotate right by the value of [b] modulo [w] *)
| Add (w : N) (a b : wx) | Sub (w : N) (a b : wx)
| Tab (l : list N) (i : wx).    (** entry [i] of a constant table *)

Definition rorw (w x n : N) : N := N.lor (shrw x n) (shlw w x (w - n)).

Fixpoint weval (rs : list N) (t : wx) : N :=
  match t with
  | Reg r => nth r rs 0
  | Cst n => n
  | Xor a b => N.lxor (weval rs a) (weval rs b)
  | And a b => N.land (weval rs a) (weval rs b)
  | Or a b => N.lor (weval rs a) (weval rs b)
  | Not w a => notw w (weval rs a)
  | Shl w a n => shlw w (weval rs a) n
  | Shr a n => shrw (weval rs a) n
  | Ror w a n => rorw w (weval rs a) n
  | RorV w a b => rorw w (weval rs a) (weval rs b mod w)
  | Add w a b => trunc w (weval rs a + weval rs b)
  | Sub w a b => trunc w (2 ^ w + weval rs a - weval rs b)
  | Tab l i => nth (N.to_nat (weval rs i)) l 0
  end.

Inductive op :=
| Set_ (d : nat) (t : wx)       (** d := t *)
| Push (r : nat) | Pop (d : nat)
| Shrink (n : nat)              (** sp += n words *)
| LdStk (d k : nat) | StStk (k r : nat) (** word [k] above the stack pointer *)
| LdObj (d b k : nat)           (** d := word [k] of the object register [b] points to *)
| StObj (b k r : nat)
| LdIdx (w : N) (d : nat) (p : wx) (k : N)  (** d := the object's word at address p + k, addresses of [w] bits *)
| StIdx (w : N) (p : wx) (k : N) (r : nat).

(** Registers, stack (top first), the pointer argument and the object it
    points to.  Registers that the processor does not have may be used for
    flags, and for values found in memory that is not initialised (AsmArm.v). *)
Record mach := Mach { regs : list N; stk : list N; base : N; obj : list N }.

Fixpoint upd {A} (l : list A) (i : nat) (v : A) : list A :=
  match l, i with
  | [], _ => []
  | _ :: r, O => v :: r
  | x :: r, S j => x :: upd r j v
  end.

(** Position of the address [a] in an object at address [b]. *)
Definition idx (w a b : N) : nat := N.to_nat (trunc w (a + (2 ^ w - trunc w b))).

(** [None]: the stack underflows, or an access does not go through the
    pointer argument or is outside of the object. *)
Definition step (o : op) (M : mach) : option mach :=
  let 'Mach rs st b ob := M in
  match o with
  | Set_ d t => Some (Mach (upd rs d (weval rs t)) st b ob)
  | Push r => Some (Mach rs (nth r rs 0 :: st) b ob)
  | Pop d => match st with v :: st' => Some (Mach (upd rs d v) st' b ob) | [] => None end
  | Shrink n => if Nat.leb n (length st) then Some (Mach rs (skipn n st) b ob) else None
  | LdStk d k => if Nat.ltb k (length st) then Some (Mach (upd rs d (nth k st 0)) st b ob) else None
  | StStk k r => if Nat.ltb k (length st) then Some (Mach rs (upd st k (nth r rs 0)) b ob) else None
  | LdObj d a k => if (nth a rs 0 =? b) && Nat.ltb k (length ob)
                   then Some (Mach (upd rs d (nth k ob 0)) st b ob) else None
  | StObj a k r => if (nth a rs 0 =? b) && Nat.ltb k (length ob)
                   then Some (Mach rs st b (upd ob k (nth r rs 0))) else None
  | LdIdx w d p k => let i := idx w (weval rs p + k) b in
                     if Nat.ltb i (length ob) then Some (Mach (upd rs d (nth i ob 0)) st b ob) else None
  | StIdx w p k r => let i := idx w (weval rs p + k) b in
                     if Nat.ltb i (length ob) then Some (Mach rs st b (upd ob i (nth r rs 0))) else None
  end%bool.

Fixpoint exec (l : list op) (M : mach) : option mach :=
  match l with
  | [] => Some M
  | o :: r => match step o M with Some M' => exec r M' | None => None end
  end.

(** Programs: straight-line code and loops "do body while a <> b"; the branch
    at the end of a loop body compares two word expressions. *)
Inductive stm := Ops (l : list op) | DoWhile (body : list stm) (a b : wx).

(** [None] also if [fuel] is not enough. *)
Fixpoint run (fuel : nat) (p : list stm) (M : mach) : option mach :=
  match fuel with
  | O => None
  | S f =>
    match p with
    | [] => Some M
    | Ops l :: r => match exec l M with Some M' => run f r M' | None => None end
    | DoWhile body a b :: r =>
      match run f body M with
      | Some M' => if weval (regs M') a =? weval (regs M') b then run f r M' else run f p M'
      | None => None
      end
    end
  end.

(** ** What an execution lets an observer see

    The indices of table reads (addresses), the amounts of rotations by a
    register, the positions of computed accesses to the object, and the
    outcomes of branches, in order.  The other accesses go to fixed offsets of the stack and of the pointer argument. *)
Fixpoint wleak (rs : list N) (t : wx) : list N :=
  match t with
  | Reg _ | Cst _ => []
  | Xor a b | And a b | Or a b | Add _ a b | Sub _ a b => wleak rs a ++ wleak rs b
  | Not _ a | Shl _ a _ | Shr a _ | Ror _ a _ => wleak rs a
  | RorV w a b => wleak rs a ++ wleak rs b ++ [weval rs b mod w]
  | Tab l i => wleak rs i ++ [weval rs i]
  end.
Definition oleak (o : op) (M : mach) : list N :=
  match o with
  | Set_ _ t => wleak (regs M) t
  | LdIdx w _ p k | StIdx w p k _ => wleak (regs M) p ++ [N.of_nat (idx w (weval (regs M) p + k) (base M))]
  | _ => []
  end.
Fixpoint exec_leak (l : list op) (M : mach) : list N :=
  match l with
  | [] => []
  | o :: r => oleak o M ++ match step o M with Some M' => exec_leak r M' | None => [] end
  end.
Fixpoint run_leak (fuel : nat) (p : list stm) (M : mach) : list N :=
  match fuel with
  | O => []
  | S f =>
    match p with
    | [] => []
    | Ops l :: r => exec_leak l M ++ match exec l M with Some M' => run_leak f r M' | None => [] end
    | DoWhile body a b :: r =>
      run_leak f body M ++
      match run f body M with
      | Some M' => let stop := weval (regs M') a =? weval (regs M') b in
                   (if stop then 1 else 0) :: (if stop then run_leak f r M' else run_leak f p M')
      | None => []
      end
    end
  end.
