(* The memory of a Go program, as far as slices of bytes are concerned, and the
   goroutines that share it.  The other models are functions on the contents of
   slices; here a slice is a window on an array, that other slices may show and
   that other goroutines may read or write.

   A function is a program made of reads and writes of single bytes and of
   allocations; the scheduler may stop it between any two of them.  The steps of
   the goroutines are interleaved (sequential consistency), which the Go memory
   model grants to programs without data races. *)
From Verif Require Import GoBase.
Local Open Scope Z_scope.

Definition memory := list (list Z).          (* the arrays *)

(* a slice: the array, where the window starts, its length.  The capacity is not
   modelled: the code never slices beyond the length of a slice, and appends only to
   slices of messages, that are not shared. *)
Record slice := mkSlice { array : nat; start : nat; size : nat }.

(* the bytes that a slice shows of an array *)
Definition window (s : slice) (l : list Z) : list Z := List.firstn (size s) (List.skipn (start s) l).
Definition content (m : memory) (s : slice) : list Z := window s (List.nth (array s) m []).

(* a program with a result of type A *)
Inductive prog (A : Type) : Type :=
| Ret (a : A)                                 (* return a *)
| Panics                                      (* a run-time panic *)
| Load (s : slice) (i : Z) (k : Z -> prog A)  (* v := s[i]; k v *)
| Store (s : slice) (i v : Z) (k : prog A)    (* s[i] = v; k *)
| Make (n : nat) (k : slice -> prog A).       (* s := make([]byte, n); k s *)
Arguments Ret {A} a.
Arguments Panics {A}.
Arguments Load {A} s i k.
Arguments Store {A} s i v k.
Arguments Make {A} n k.

Fixpoint bind {A B : Type} (p : prog A) (f : A -> prog B) : prog B :=
  match p with
  | Ret a => f a
  | Panics => Panics
  | Load s i k => Load s i (fun v => bind (k v) f)
  | Store s i v k => Store s i v (bind k f)
  | Make n k => Make n (fun s => bind (k s) f)
  end.
Notation "x <- p ;; q" := (bind p (fun x => q)) (at level 61, p at next level, right associativity).

Definition load (s : slice) (i : Z) : prog Z := Load s i Ret.
Definition store (s : slice) (i v : Z) : prog unit := Store s i v (Ret tt).
Definition make (n : nat) : prog slice := Make n Ret.

(* s[lo:hi] *)
Definition cut (s : slice) (lo hi : Z) : prog slice :=
  if (0 <=? lo) && (lo <=? hi) && (hi <=? Z.of_nat (size s))
  then Ret (mkSlice (array s) (start s + Z.to_nat lo) (Z.to_nat (hi - lo)))
  else Panics.

(* ---- execution ---- *)

(* the array with v at n *)
Definition write (l : list Z) (n : nat) (v : Z) : list Z := (List.firstn n l ++ v :: List.skipn (S n) l)%list.

Fixpoint replace {A : Type} (l : list A) (n : nat) (x : A) : list A :=
  match l, n with
  | [], _ => []
  | _ :: r, O => x :: r
  | a :: r, S n => a :: replace r n x
  end.

Inductive step {A : Type} : memory -> prog A -> memory -> prog A -> Prop :=
| step_load : forall m s i k v, idx (content m s) i = Ok v -> step m (Load s i k) m (k v)
| step_load_out : forall m s i k, idx (content m s) i = Panic -> step m (Load s i k) m Panics
| step_store : forall m s i v k w, idx (content m s) i = Ok w ->
    step m (Store s i v k) (replace m (array s) (write (List.nth (array s) m []) (start s + Z.to_nat i) v)) k
| step_store_out : forall m s i v k, idx (content m s) i = Panic -> step m (Store s i v k) m Panics
| step_make : forall m n k, step m (Make n k) (m ++ [List.repeat 0 n])%list (k (mkSlice (List.length m) 0 n)).

(* the goroutines: any of them makes a step *)
Inductive schedule {A : Type} : memory -> list (prog A) -> memory -> list (prog A) -> Prop :=
| schedule_one : forall m before p after m' p', step m p m' p' ->
    schedule m (before ++ p :: after)%list m' (before ++ p' :: after)%list.

Inductive reaches {A : Type} : memory -> list (prog A) -> memory -> list (prog A) -> Prop :=
| reaches_here : forall m ps, reaches m ps m ps
| reaches_step : forall m ps m1 ps1 m2 ps2, reaches m ps m1 ps1 -> schedule m1 ps1 m2 ps2 -> reaches m ps m2 ps2.

(* what a program is about to do to the memory *)
Definition reads {A : Type} (p : prog A) (a : nat) : Prop :=
  match p with Load s _ _ => array s = a | _ => False end.
Definition writes {A : Type} (p : prog A) (a : nat) : Prop :=
  match p with Store s _ _ _ => array s = a | _ => False end.
