(** What parsing attributes into a caller's table must achieve. *)
From Verif Require Import Model.Common Spec.Netlink.

(** The caller asks for attribute type t by putting it in the table; types
    from 11 on are not supported. *)
Definition requested (tbl : attrmap) (t : Z) : bool :=
  (t <? 11) && match amap_get tbl t with Some _ => true | None => false end.

(** window s lies inside window buf *)
Definition window_in (buf s : slice) : Prop :=
  s_arr s = s_arr buf /\ (s_off buf <= s_off s)%nat /\
  (s_off s + s_len s <= s_off buf + s_len buf)%nat.

(** [tbl'] is [tbl] with every requested attribute that occurs among the
    attributes [l] replaced by a window of [buf] showing the data of its last
    occurrence, and nothing else changed. *)
Definition table_filled (h : heap) (buf : slice) (l : list (Z * bytes)) (tbl tbl' : attrmap) : Prop :=
  forall t,
    (requested tbl t = false -> amap_get tbl' t = amap_get tbl t) /\
    (requested tbl t = true ->
       match last_attr t l with
       | None => amap_get tbl' t = amap_get tbl t
       | Some v => exists s, amap_get tbl' t = Some s /\ rd h s = v /\ window_in buf s
       end).
