(** Specification of the memory trace (C98): the calls of a memory interface and what a reader of the trace makes of its text.
    Does not mention the model. *)
From Coq Require Import ZArith List String Ascii Bool.
Import ListNotations.
Local Open Scope Z_scope.

(** Calls: scalar load (address, size); vector load (addresses, mask, element size); scalar store (address, bytes); vector store
    (addresses, mask, element size, bytes); clearing of the trace. *)
Inductive call :=
| LoadOne (address : Z) (size : nat)
| LoadMany (addresses : list Z) (mask : list bool) (el_size : nat)
| StoreOne (address : Z) (bytes : list Z)
| StoreMany (addresses : list Z) (mask : list bool) (el_size : nat) (bytes : list Z)
| Clear.

(** What happened, element by element: a read, or a write of a number of bytes with a value. *)
Inductive event := Read (address : Z) | Wrote (address : Z) (size : nat) (value : Z).

(** Bytes in memory order as a number. *)
Fixpoint le_value (bytes : list Z) : Z := match bytes with [] => 0 | b :: r => b + 256 * le_value r end.
(** Element i of a vector. *)
Definition element (el_size i : nat) (bytes : list Z) : list Z := firstn el_size (skipn (i * el_size) bytes).
(** The events of a call: one for each active element. *)
Definition meant (c : call) : list event :=
  match c with
  | LoadOne a _ => [Read a]
  | LoadMany l m _ => map (fun p => Read (fst p)) (filter snd (combine l m))
  | StoreOne a b => [Wrote a (List.length b) (le_value b)]
  | StoreMany l m n b => map (fun p => Wrote (fst (snd p)) n (le_value (element n (fst p) b))) (filter (fun p => snd (snd p)) (combine (seq 0 (List.length l)) (combine l m)))
  | Clear => []
  end.
(** The calls after the last clearing. *)
Fixpoint since_clear (l : list call) : list call :=
  match l with
  | [] => []
  | c :: r => if existsb (fun d => match d with Clear => true | _ => false end) r then since_clear r else match c with Clear => r | _ => c :: r end
  end.
(** The calls that concern memory. *)
Definition memory_calls (l : list call) : list call := filter (fun c => match c with Clear => false | _ => true end) l.

(** ---- a reader of the trace: words between spaces, "mem" and an address for each event, then a value for a write ---- *)
Definition text := list ascii.
Fixpoint words (l : text) : list text :=
  match l with
  | [] => [[]]
  | c :: t => if Ascii.eqb c " " then [] :: words t else match words t with w :: r => (c :: w) :: r | [] => [[c]] end
  end.
Definition hex_value (c : ascii) : option Z :=
  let n := Z.of_nat (nat_of_ascii c) in
  if (48 <=? n) && (n <=? 57) then Some (n - 48) else if (97 <=? n) && (n <=? 102) then Some (n - 87) else None.
Fixpoint digits_value (acc : Z) (l : text) : option Z :=
  match l with [] => Some acc | c :: t => match hex_value c with Some d => digits_value (16 * acc + d) t | None => None end end.
(** 0x and digits: their count and value. *)
Definition number (w : text) : option (nat * Z) :=
  match w with
  | c :: d :: r => if Ascii.eqb c "0" && Ascii.eqb d "x" then option_map (fun v => (List.length r, v)) (digits_value 0 r) else None
  | _ => None
  end.
Definition is_mem (w : text) : bool := match w with [a; b; c] => Ascii.eqb a "m" && Ascii.eqb b "e" && Ascii.eqb c "m" | _ => false end.
Fixpoint read_words (l : list text) : option (list event) :=
  match l with
  | [] => Some []
  | m :: r =>
      if is_mem m then
        match r with
        | a :: s =>
            match number a with
            | None => None
            | Some (_, addr) =>
                match s with
                | [] => Some [Read addr]
                | v :: t => if is_mem v then option_map (cons (Read addr)) (read_words s)
                            else match number v with
                                 | Some (n, x) => option_map (cons (Wrote addr (n / 2) x)) (read_words t)
                                 | None => None
                                 end
                end
            end
        | [] => None
        end
      else None
  end.
(** The trace starts with a space unless empty. *)
Definition read_trace (l : text) : option (list event) := match words l with [] :: r => read_words r | _ => None end.
