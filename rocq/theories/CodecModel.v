(** * CodecModel.v — models common/utils/contract_codec.go
    go-ethereum's Arguments.Pack / Arguments.Unpack are arbitrary functions per argument list; slices are modelled with their
    backing arrays because EncodeCalldata appends to the selector slice stored in the shared ABI object. *)
From Coq Require Import ZArith List Bool Arith String.
From Verif Require Import Field TxModel.
Import ListNotations.
Open Scope Z_scope.

(** ** Go slices: backing arrays are numbered cells of a heap; a slice is (array, offset, length), its capacity is the rest of the array *)
Definition heap := list (list Z).
Record slice := { s_arr : nat; s_off : nat; s_len : nat }.
Definition s_cap (h : heap) (s : slice) : nat := (List.length (nth (s_arr s) h []) - s_off s)%nat.
Definition content (h : heap) (s : slice) : list Z := firstn (s_len s) (skipn (s_off s) (nth (s_arr s) h [])).
Definition set_arr (h : heap) (a : nat) (l : list Z) : heap := firstn a h ++ l :: skipn (S a) h.
(** overwrite [xs] at position [i] of an array *)
Definition write (l : list Z) (i : nat) (xs : list Z) : list Z := firstn i l ++ xs ++ skipn (i + List.length xs) l.
(** the built-in append: in place when the capacity suffices, else into a fresh array (some spare capacity [extra]) *)
Definition go_append (extra : nat) (h : heap) (s : slice) (xs : list Z) : heap * slice :=
  if Nat.leb (s_len s + List.length xs) (s_cap h s)
  then (set_arr h (s_arr s) (write (nth (s_arr s) h []) (s_off s + s_len s) xs), {| s_arr := s_arr s; s_off := s_off s; s_len := s_len s + List.length xs |})
  else (h ++ [content h s ++ xs ++ repeat 0 extra], {| s_arr := List.length h; s_off := 0; s_len := s_len s + List.length xs |}).
(** s[i] = x by whoever holds the slice *)
Definition go_store (h : heap) (s : slice) (i : nat) (x : Z) : heap := set_arr h (s_arr s) (write (nth (s_arr s) h []) (s_off s + i) [x]).

Section Codec.
(** Go values produced by Unpack: [ty] is the reflect type, [deref] the value behind a pointer value *)
Variable V : Type.
(** abi.Arguments: Pack fails on arguments of the wrong number or types, Unpack on malformed data *)
Record arguments := { pack : list V -> option (list Z); unpack : list Z -> option (list V) }.
Record method := { m_id : slice; m_inputs : arguments; m_outputs : arguments }.
Definition abi := string -> option method.

(** contract_codec.go:28-30 Selector: the zero Method has a nil ID *)
Definition selector (c : abi) (name : string) : option slice := option_map m_id (c name).
(** contract_codec.go:32-42 EncodeCalldata *)
Definition encode_calldata (extra : nat) (c : abi) (h : heap) (name : string) (args : list V) : heap * res slice :=
  match c name with
  | None => (h, Err)
  | Some m => match pack (m_inputs m) args with
              | None => (h, Err)
              | Some inputs => let '(h', s) := go_append extra h (m_id m) inputs in (h', Ok s)
              end
  end.
(** contract_codec.go:60-66 EncodeReturnData *)
Definition encode_return (c : abi) (name : string) (vals : list V) : res (list Z) :=
  match c name with None => Err | Some m => match pack (m_outputs m) vals with None => Err | Some b => Ok b end end.

(** ** decodeArgs: targets are passed as interface values: a pointer to a variable of some type, or something else *)
Variable Ty : Type.
Variable ty_eqb : Ty -> Ty -> bool.
(** the value a result is stored as ([None]: reflect.ValueOf(nil) is not valid), dereferenced when it is a pointer *)
Variable stored : V -> option V.
Variable ty_of : V -> Ty.
Inductive target := Ptr (var : nat) (t : Ty) | NotPtr.
Definition store := nat -> option V.
Definition set_var (s : store) (x : nat) (v : V) : store := fun y => if Nat.eqb y x then Some v else s y.
(** contract_codec.go:79-93: the loop; reflect's Set panics when the types differ *)
Fixpoint assign (vals : list V) (ptrs : list target) (s : store) : store * res unit :=
  match vals, ptrs with
  | v :: vals', p :: ptrs' =>
    match p with
    | NotPtr => (s, Err)
    | Ptr x t => match stored v with
                 | None => assign vals' ptrs' s
                 | Some w => if ty_eqb (ty_of w) t then assign vals' ptrs' (set_var s x w) else (s, Panic)
                 end
    end
  | _, _ => (s, Ok tt)
  end.
(** contract_codec.go:68-94 decodeArgs *)
Definition decode_args (a : arguments) (data : list Z) (ptrs : list target) (s : store) : store * res unit :=
  match unpack a data with
  | None => (s, Err)
  | Some vals => if Nat.eqb (List.length vals) (List.length ptrs) then assign vals ptrs s else (s, Err)
  end.
(** contract_codec.go:44-50 DecodeCalldata, 52-58 DecodeReturnData *)
Definition decode_calldata (c : abi) (name : string) (data : list Z) (ptrs : list target) (s : store) : store * res unit :=
  match c name with None => (s, Err) | Some m => decode_args (m_inputs m) data ptrs s end.
Definition decode_return (c : abi) (name : string) (data : list Z) (ptrs : list target) (s : store) : store * res unit :=
  match c name with None => (s, Err) | Some m => decode_args (m_outputs m) data ptrs s end.
End Codec.
Arguments pack {V}. Arguments unpack {V}. Arguments m_id {V}. Arguments m_inputs {V}. Arguments m_outputs {V}.
Arguments Ptr {Ty}. Arguments NotPtr {Ty}.
