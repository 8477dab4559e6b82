(** Listing and flushing the conntrack table (conntrack/conntrack.go:21-38). *)
From Verif Require Export Model.Conntrack.

(** github.com/vishvananda/netlink, not part of /repo: for a table and an address
    family the flows (a Go slice: None is nil) and an error, both arbitrary *)
(* no code of /repo: netlink.ConntrackTableList *)
Definition lib_list : Type := Z -> Z -> option (list flow) * option gerr.

(* conntrack.go:24-30; "Empty table" is ENotPresent *)
Definition ConntrackTableList (lib : lib_list) (table : Z) : option (list flow) * option gerr :=
  let '(result, err) := lib table AF_INET in
  match result, err with
  | Some l, None => (Some l, None)
  | _, _ => (None, Some ENotPresent)
  end.

(* conntrack.go:34-38 *)
Definition ConntrackTableFlush (lib : Z -> option gerr) (table : Z) : option gerr := lib table.
