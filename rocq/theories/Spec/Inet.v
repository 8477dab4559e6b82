(** IP, TCP and UDP headers and the Internet checksum, written from RFC 791,
    768, 793, 8200 and 1071; nothing here refers to the models but the heap. *)
From Verif Require Import Go.Heap Spec.Netlink.

(** ** RFC 1071 *)
(** the 16-bit big-endian words of a byte string, an odd last byte padded with 0 *)
Fixpoint words16 (b : bytes) : list Z :=
  match b with
  | [] => []
  | [x] => [x * 256]
  | x :: y :: r => (x * 256 + y) :: words16 r
  end.
(** ones'-complement addition of 16-bit numbers: the carry is added back *)
Definition oc_add (a b : Z) : Z := if a + b <? 65536 then a + b else a + b - 65535.
Definition oc_sum (b : bytes) : Z := fold_left oc_add (words16 b) 0.
(** the checksum of a byte string *)
Definition internet_checksum (b : bytes) : Z := 65535 - oc_sum b.
(** a byte string that includes its checksum is valid *)
Definition sums_to_ones (b : bytes) : Prop := oc_sum b = 65535.

(** ** Header fields *)
Definition be16f (b : bytes) (o : nat) : Z := num BE (field b o 2).
Definition be32f (b : bytes) (o : nat) : Z := num BE (field b o 4).
Definition byte_at (b : bytes) (o : nat) : Z := nth o b 0.

(** IPv4 (RFC 791, 3.1), header without options *)
Definition ip4_version (b : bytes) : Z := byte_at b 0 / 16.
Definition ip4_ihl (b : bytes) : Z := byte_at b 0 mod 16.
Definition ip4_total (b : bytes) : Z := be16f b 2.
Definition ip4_id (b : bytes) : Z := be16f b 4.
Definition ip4_proto (b : bytes) : Z := byte_at b 9.
Definition ip4_checksum (b : bytes) : Z := be16f b 10.
Definition ip4_src (b : bytes) : bytes := field b 12 4.
Definition ip4_dst (b : bytes) : bytes := field b 16 4.
(** IPv6 (RFC 8200, 3), fixed header *)
Definition ip6_payload (b : bytes) : Z := be16f b 4.
Definition ip6_next (b : bytes) : Z := byte_at b 6.
Definition ip6_src (b : bytes) : bytes := field b 8 16.
Definition ip6_dst (b : bytes) : bytes := field b 24 16.
(** TCP (RFC 793, 3.1) and UDP (RFC 768) headers at offset [o] *)
Definition l4_sport (b : bytes) (o : nat) : Z := be16f b o.
Definition l4_dport (b : bytes) (o : nat) : Z := be16f b (o + 2).
Definition tcp_seq (b : bytes) (o : nat) : Z := be32f b (o + 4).
Definition tcp_ack (b : bytes) (o : nat) : Z := be32f b (o + 8).
Definition tcp_offset (b : bytes) (o : nat) : Z := byte_at b (o + 12) / 16.
Definition tcp_flags (b : bytes) (o : nat) : Z := byte_at b (o + 13).
Definition tcp_checksum (b : bytes) (o : nat) : Z := be16f b (o + 16).
Definition udp_length (b : bytes) (o : nat) : Z := be16f b (o + 4).
Definition udp_checksum (b : bytes) (o : nat) : Z := be16f b (o + 6).
Definition PROTO_TCP : Z := 6.
Definition PROTO_UDP : Z := 17.

(** pseudo headers: RFC 793 3.1 / RFC 768, and RFC 8200 8.1 *)
Definition pseudo4 (src dst : bytes) (proto len : Z) : bytes :=
  src ++ dst ++ [0; proto] ++ [len / 256; len mod 256].
Definition pseudo6 (src dst : bytes) (proto len : Z) : bytes :=
  src ++ dst ++ [len / 16777216; len / 65536 mod 256; len / 256 mod 256; len mod 256] ++ [0; 0; 0; proto].

(** ** Memory *)
(** the bytes of slice [s] for which [P] holds are all that differs between two
    heaps; arrays keep their sizes *)
Definition only_bytes (h h' : heap) (s : slice) (P : nat -> Prop) : Prop :=
  length h' = length h /\ (forall a, length (arr h' a) = length (arr h a)) /\
  forall a i, nth i (arr h' a) 0 <> nth i (arr h a) 0 ->
    a = s_arr s /\ exists k, i = (s_off s + k)%nat /\ (k < s_len s)%nat /\ P k.
