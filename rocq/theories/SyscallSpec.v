(** Specification vocabulary for the syscall tables. *)
From stdpp Require Import strings list.
From Coq Require Import ZArith.
From Verif Require Import SyscallTable SyscallModel.

(** consts.go lists [name] under [class] and [group]. *)
Definition in_class_map (class group name : string) : Prop :=
  exists gs names, (class, gs) ∈ gClassMap /\ (group, names) ∈ gs /\ name ∈ names.

(** The numbered syscalls without a class. *)
Definition unclassified : list string :=
  ["sys_setfsgid"; "sys_munlock"; "sys_munlockall"; "sys_query_module"; "sys_getpmsg"; "sys_putpmsg";
   "sys_afs_syscall"; "sys_tuxcall"; "sys_security"; "sys_llistxattr"; "sys_epoll_ctl_old";
   "sys_epoll_wait_old"; "sys_remap_file_pages"; "sys_vserver"; "sys_mbind"; "sys_set_mempolicy";
   "sys_get_mempolicy"; "sys_request_key"; "sys_migrate_pages"; "sys_move_pages"; "sys_getcpu";
   "sys_userfaultfd"; "sys_copy_file_range"; "sys_preadv2"; "sys_pwritev2"; "sys_pkey_mprotect";
   "sys_pkey_alloc"; "sys_pkey_free"]%string.

(** A table the program can have after start-up: built over some walk of the maps. *)
Definition go_table (tbl : syscalls) : Prop :=
  exists walk, walks gClassMap walk /\ new_syscalls walk = Some tbl.
(** [nr] is a number the table knows. *)
Definition known (tbl : syscalls) (nr : Z) : Prop := is_Some (lookup_sc tbl (ByInt nr)).
