(** Go slices with aliasing: a heap of byte arrays and windows into them. *)
From Verif Require Export Go.Base.

Definition heap : Type := list bytes.

(** A slice: array index, offset of element 0, length, capacity. *)
Record slice := mkSl { s_arr : nat; s_off : nat; s_len : nat; s_cap : nat }.

Definition arr (h : heap) (a : nat) : bytes := nth a h [].

(** the bytes a slice shows *)
Definition rd (h : heap) (s : slice) : bytes :=
  firstn (s_len s) (skipn (s_off s) (arr h (s_arr s))).

(** replace one array *)
Definition upd_arr (h : heap) (a : nat) (l : bytes) : heap :=
  firstn a h ++ l :: skipn (S a) h.

(** s[lo:hi] (Go checks 0 <= lo <= hi <= cap(s)) *)
Definition reslice (s : slice) (lo hi : Z) : res slice :=
  if (0 <=? lo) && (lo <=? hi) && (hi <=? Z.of_nat (s_cap s))
  then Ok (mkSl (s_arr s) (s_off s + Z.to_nat lo) (Z.to_nat hi - Z.to_nat lo)
                (s_cap s - Z.to_nat lo))
  else Panic.
(** s[lo:] and s[:hi] *)
Definition resl_from (s : slice) (lo : Z) : res slice := reslice s lo (Z.of_nat (s_len s)).
Definition resl_to (s : slice) (hi : Z) : res slice := reslice s 0 hi.

(** write v over s[i:i+len(v)]; panics unless inside the length *)
Definition wr (h : heap) (s : slice) (i : Z) (v : bytes) : res heap :=
  if (0 <=? i) && (i + zlen v <=? Z.of_nat (s_len s))
  then Ok (upd_arr h (s_arr s) (splice (arr h (s_arr s)) (s_off s + Z.to_nat i) v))
  else Panic.
(** s[i] *)
Definition sidx (h : heap) (s : slice) (i : Z) : res Z := gidx (rd h s) i.

(** a fresh array holding v followed by [spare] zero bytes *)
Definition alloc (h : heap) (v : bytes) (spare : nat) : heap * slice :=
  (h ++ [v ++ repeat 0 spare], mkSl (length h) 0 (length v) (length v + spare)).

(** append(s, v...): in place when the capacity suffices, otherwise a fresh
    array whose spare capacity is chosen by the run time ([grow], arbitrary). *)
Definition gappend (grow : nat -> nat -> nat) (h : heap) (s : slice) (v : bytes)
  : heap * slice :=
  if (s_len s + length v <=? s_cap s)%nat
  then (match v with
        | [] => h
        | _ => upd_arr h (s_arr s) (splice (arr h (s_arr s)) (s_off s + s_len s) v)
        end,
        mkSl (s_arr s) (s_off s) (s_len s + length v) (s_cap s))
  else alloc h (rd h s ++ v) (grow (s_cap s) (s_len s + length v)%nat).

(** copy(s, v): copies min(len(s), len(v)) bytes *)
Definition scopy (h : heap) (s : slice) (v : bytes) : heap :=
  upd_arr h (s_arr s) (splice (arr h (s_arr s)) (s_off s) (firstn (s_len s) v)).

(** the empty slice literal []byte{} / nil *)
Definition snil : slice := mkSl 0 0 0 0.

(** A slice lies inside its array. *)
Definition valid (h : heap) (s : slice) : Prop :=
  (s_len s <= s_cap s)%nat /\
  (s_cap s = 0%nat \/
   ((s_arr s < length h)%nat /\ (s_off s + s_cap s <= length (arr h (s_arr s)))%nat)).
