(** What looking at a packet must show (C64-C67). *)
From Verif Require Import Model.PacketView Spec.Netlink Spec.Inet Spec.PacketSpec.
From Coq Require Import String.

(** where the TCP payload starts in a packet whose TCP header is at [o], and the payload *)
Definition tcp_payload_at (b : bytes) (o : nat) : nat := (o + Z.to_nat (4 * tcp_offset b o))%nat.
Definition tcp_payload (b : bytes) (o : nat) : bytes := skipn (tcp_payload_at b o) b.
(** SYN and FIN (RFC 793, 3.1) *)
Definition syn_bit (f : Z) : Z := f / 2 mod 2.
Definition fin_bit (f : Z) : Z := f mod 2.
(** the acknowledgement the receiver of a segment answers with (RFC 793, 3.3):
    SYN and FIN count like a byte each *)
Definition next_seq (seq flags len : Z) : Z := (seq + len + syn_bit flags + fin_bit flags) mod 4294967296.

(** the first name whose bit is set *)
Fixpoint first_name (flags : Z) (l : list (Z * string)) (default : string) : bytes :=
  match l with
  | [] => text default
  | (i, s) :: l' => if Z.testbit flags i then text s else first_name flags l' default
  end.
Definition direction_of (flags : Z) : bytes :=
  first_name flags [(13, "<<<<<"); (12, ">>>>>")]%string "xxxxx".
Definition path_of (flags : Z) : bytes :=
  first_name flags [(13, "Application"); (12, "Network")]%string "" ++
  first_name flags [(8, "-Incoming"); (11, "-Outgoing"); (9, "-Auth"); (10, "-Service")]%string "" ++
  first_name flags [(4, "-(Fail Create)"); (5, "-(Fail Auth)"); (6, "-(Fail Service)")]%string "".
