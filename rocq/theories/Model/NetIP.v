(** Standard-library text functions the code relies on: strconv.Itoa for
    non-negative integers and net.IP.String (Go's net package; not part of
    /repo, modelled from its documented algorithm: IPv4 and IPv4-mapped
    addresses dotted, IPv6 in lower-case hex groups with the first longest run
    of at least two zero groups replaced by "::"). Strings are lists of byte
    codes. *)
From Verif Require Export Go.Base.

(** decimal digits of a non-negative number, most significant first; 20 digits
    suffice for any 64-bit value *)
(* no code of /repo: strconv.Itoa *)
Fixpoint digits_rev (fuel : nat) (n : Z) : bytes :=
  match fuel with
  | O => []
  | S f => if n <? 10 then [48 + n] else (48 + n mod 10) :: digits_rev f (n / 10)
  end.
(* no code of /repo: strconv.Itoa *)
Definition itoa (n : Z) : bytes := rev (digits_rev 20 n).

(* no code of /repo: net/ip.go IP.String *)
Definition hexdigit (d : Z) : Z := if d <? 10 then 48 + d else 87 + d.
(** appendHex: no leading zeros, "0" for 0 *)
(* no code of /repo: net/ip.go IP.String *)
Fixpoint hex_rev (fuel : nat) (n : Z) : bytes :=
  match fuel with
  | O => []
  | S f => if n <? 16 then [hexdigit n] else hexdigit (n mod 16) :: hex_rev f (n / 16)
  end.
(* no code of /repo: net/ip.go IP.String *)
Definition hexstr (n : Z) : bytes := rev (hex_rev 8 n).

(* no code of /repo: net/ip.go IP.String *)
Definition dotted (a b c d : Z) : bytes :=
  itoa a ++ [46] ++ itoa b ++ [46] ++ itoa c ++ [46] ++ itoa d.

(** the eight 16-bit groups of a 16-byte address *)
(* no code of /repo: net/ip.go IP.String *)
Fixpoint groups (l : bytes) : list Z :=
  match l with
  | a :: b :: r => a * 256 + b :: groups r
  | _ => []
  end.

(** length of the run of zero groups at the head *)
(* no code of /repo: net/ip.go IP.String *)
Fixpoint zrun (g : list Z) : nat :=
  match g with
  | 0 :: r => S (zrun r)
  | _ => O
  end.
(** first longest run of zero groups: (start, length), scanning from index i;
    a later run replaces an earlier one only if strictly longer *)
(* no code of /repo: net/ip.go IP.String *)
Fixpoint best_run (g : list Z) (i : nat) (best : nat * nat) : nat * nat :=
  match g with
  | [] => best
  | _ :: r =>
      let n := zrun g in
      best_run r (S i) (if (snd best <? n)%nat then (i, n) else best)
  end.

(* no code of /repo: net/ip.go IP.String *)
Fixpoint join_colon (l : list bytes) : bytes :=
  match l with
  | [] => []
  | [x] => x
  | x :: r => x ++ [58] ++ join_colon r
  end.

(* no code of /repo: net/ip.go IP.String *)
Definition ip6_string (g : list Z) : bytes :=
  let '(s, n) := best_run g 0 (O, O) in
  if (n <? 2)%nat then join_colon (map hexstr g)
  else join_colon (map hexstr (firstn s g)) ++ [58; 58]
       ++ join_colon (map hexstr (skipn (s + n) g)).

(** the bytes in hexadecimal, for lengths that are neither 4 nor 16 *)
(* no code of /repo: net/ip.go IP.String *)
Definition hexbytes (l : bytes) : bytes :=
  flat_map (fun b => [hexdigit (b / 16); hexdigit (b mod 16)]) l.

(* no code of /repo: net/ip.go IP.String *)
Definition ip_string (ip : bytes) : bytes :=
  match ip with
  | [] => [60; 110; 105; 108; 62]                    (* "<nil>" *)
  | [a; b; c; d] => dotted a b c d
  | _ =>
      if (length ip =? 16)%nat then
        match ip with
        | [0;0;0;0;0;0;0;0;0;0;255;255;a;b;c;d] => dotted a b c d
        | _ => ip6_string (groups ip)
        end
      else 63 :: hexbytes ip
  end.
