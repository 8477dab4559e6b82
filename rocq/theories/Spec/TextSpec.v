(** Reading a packet description back (C74). *)
From Verif Require Import Model.PacketView Spec.Netlink Spec.Inet Spec.PacketSpec.

Definition hex_value (c : Z) : option Z :=
  if (48 <=? c) && (c <=? 57) then Some (c - 48)
  else if (97 <=? c) && (c <=? 102) then Some (c - 87) else None.
(** two digits per byte *)
Fixpoint read_hex (s : bytes) : option bytes :=
  match s with
  | [] => Some []
  | a :: b :: r =>
      match hex_value a, hex_value b, read_hex r with
      | Some x, Some y, Some l => Some (16 * x + y :: l)
      | _, _, _ => None
      end
  | _ => None
  end.
(** value of a hexadecimal numeral *)
Fixpoint hex_number (acc : Z) (s : bytes) : option Z :=
  match s with
  | [] => Some acc
  | c :: r => match hex_value c with Some d => hex_number (16 * acc + d) r | None => None end
  end.
