(** The kernel side of the arguments: what swoll__fill_args_* store in the five
    slots of the event when a call returns (internal/bpf/probe.c 1578-2539,
    2625-2721), what the execve tracepoint stores (2734-2769), and the whole
    event as it is handed to the perf buffer. *)
From stdpp Require Import base list numbers.
From Coq Require Import ZArith Lia.
From Verif Require Import RawModel DecodeModel KernelModel.

Local Open Scope Z_scope.

(** The memory of the task when the program runs: [None] where no page is
    mapped (or the page is not present: the helper does not fault pages in). *)
Definition memory := Z -> option Z.

(** Every byte of a range, if all are mapped. *)
Fixpoint load (mem : memory) (addr : Z) (n : nat) : option (list Z) :=
  match n with
  | O => Some []
  | S n' =>
      match mem addr, load mem (addr + 1) n' with
      | Some b, Some bs => Some (b :: bs)
      | _, _ => None
      end
  end.

(** The helper bpf_probe_read(dst, n, addr): on a fault the kernel zeroes all of
    [dst].  The programs ignore the result. *)
Definition probe_read (mem : memory) (addr : Z) (n : nat) : list Z :=
  match load mem addr n with Some bs => bs | None => repeat 0 n end.

(** One statement of a filler.  [reg] counts the syscall's argument registers
    from 0; it is the position of the struct member (325-1000) after [nr]. *)
Inductive fill_op :=
| Reg (slot reg : nat)     (* bpf_probe_memcpy of a member: always 8 bytes *)
| Mem (slot reg n : nat)   (* bpf_probe_read of n bytes from the pointer in reg *)
| Vec (slot reg i : nat).  (* 128 bytes from the i-th pointer of the vector in reg *)

(** SWOLL_COMMON_LTZERO_ERROR (1582), SWOLL_COMMON_NULL_ERROR (1588). *)
Inductive err_kind := LtZero | NullError.

Definition errno_of (e : err_kind) (ret : Z) : Z :=
  match e with
  | LtZero => if s32 ret <? 0 then RawModel.u32 (- s32 ret) else 0
  | NullError => if RawModel.u64 ret =? 0 then 2 ^ 32 - 1 else 0
  end.

(** The switch of swoll__exit (2636-2712) with the filler of each case. *)
Definition fillers : list (Z * (list fill_op * err_kind)) :=
  [
    (* kill, 1621-1629 *)
    (62, ([Reg 0 0; Reg 1 1], LtZero));
    (* acct, 1945-1952 *)
    (163, ([Mem 0 0 128], LtZero));
    (* alarm, 1954-1961 *)
    (37, ([Reg 0 0], LtZero));
    (* brk, 1963-1970 *)
    (12, ([Reg 0 0], LtZero));
    (* close, 2160-2167 *)
    (3, ([Reg 0 0], LtZero));
    (* access, 1723-1731 *)
    (21, ([Mem 0 0 128; Reg 1 1], LtZero));
    (* openat, 1778-1788 *)
    (257, ([Reg 0 0; Mem 1 1 128; Reg 2 2], LtZero));
    (* open, 1790-1799 *)
    (2, ([Mem 0 0 128; Reg 1 1; Reg 2 2], LtZero));
    (* connect, 1801-1811 *)
    (42, ([Reg 0 0; Mem 1 1 128; Reg 2 2], LtZero));
    (* execve, 1814-1818 *)
    (59, ([], LtZero));
    (* unlink, 1820-1827 *)
    (87, ([Mem 0 0 128], LtZero));
    (* unlinkat, 1829-1838 *)
    (263, ([Reg 0 0; Mem 1 1 128; Reg 2 2], LtZero));
    (* epoll_wait, 1840-1848 *)
    (232, ([Reg 0 0; Reg 2 2], LtZero));
    (* faccessat, 1850-1859 *)
    (269, ([Reg 0 0; Mem 1 1 128; Reg 2 2], LtZero));
    (* statx, 1861-1872 *)
    (332, ([Reg 0 0; Mem 1 1 128; Reg 2 2; Reg 3 3; Mem 4 4 128], LtZero));
    (* syslog, 1874-1883 *)
    (103, ([Reg 0 0; Mem 1 1 128; Reg 2 2], LtZero));
    (* fcntl, 1885-1894 *)
    (72, ([Reg 0 0; Reg 1 1; Reg 2 2], LtZero));
    (* fdatasync, 1896-1903 *)
    (75, ([Reg 0 0], LtZero));
    (* fstatfs, 1905-1913 *)
    (138, ([Reg 0 0; Mem 1 1 128], LtZero));
    (* fstat, 1915-1923 *)
    (5, ([Reg 0 0; Mem 1 1 128], LtZero));
    (* statfs, 1935-1943 *)
    (137, ([Mem 0 0 128; Mem 1 1 128], LtZero));
    (* fsync, 1972-1979 *)
    (74, ([Reg 0 0], LtZero));
    (* ftruncate, 1981-1989 *)
    (77, ([Reg 0 0; Reg 1 1], LtZero));
    (* getcwd, 1991-1999 *)
    (79, ([Mem 0 0 128; Reg 1 1], NullError));
    (* getdents, 2001-2009 *)
    (78, ([Reg 0 0; Reg 2 2], LtZero));
    (* inotify_add_watch, 2011-2020 *)
    (254, ([Reg 0 0; Mem 1 1 128; Reg 2 2], LtZero));
    (* listen, 2022-2030 *)
    (50, ([Reg 0 0; Reg 1 1], LtZero));
    (* lookup_dcookie, 2032-2041 *)
    (212, ([Reg 0 0; Reg 2 2; Mem 1 1 128], LtZero));
    (* lseek, 2043-2052 *)
    (8, ([Reg 0 0; Reg 1 1; Reg 2 2], LtZero));
    (* madvise, 2054-2063 *)
    (28, ([Reg 0 0; Reg 1 1; Reg 2 2], LtZero));
    (* membarrier, 2065-2073 *)
    (324, ([Reg 0 0; Reg 1 1], LtZero));
    (* mkdir, 2075-2083 *)
    (83, ([Mem 0 0 128; Reg 1 1], LtZero));
    (* mkdirat, 2085-2094 *)
    (258, ([Reg 0 0; Mem 1 1 128; Reg 2 2], LtZero));
    (* mknod, 2096-2105 *)
    (133, ([Mem 0 0 128; Reg 1 1; Reg 2 2], LtZero));
    (* mlock, 2107-2115 *)
    (149, ([Reg 0 0; Reg 1 1], LtZero));
    (* pivot_root, 2117-2125 *)
    (155, ([Mem 0 0 128; Mem 1 1 128], LtZero));
    (* poll, 2127-2135 *)
    (7, ([Reg 1 1; Reg 2 2], LtZero));
    (* prctl, 2137-2146 *)
    (157, ([Reg 0 0; Reg 1 1; Reg 2 2], LtZero));
    (* rmdir, 2169-2176 *)
    (84, ([Mem 0 0 128], LtZero));
    (* chdir, 2178-2185 *)
    (80, ([Mem 0 0 128], LtZero));
    (* fchdir, 2187-2192 *)
    (81, ([], LtZero));
    (* chroot, 2194-2201 *)
    (161, ([Mem 0 0 128], LtZero));
    (* link, 2203-2211 *)
    (86, ([Mem 0 0 128; Mem 1 1 128], LtZero));
    (* linkat, 2213-2218 *)
    (265, ([], LtZero));
    (* symlink, 2220-2228 *)
    (88, ([Mem 0 0 128; Mem 1 1 128], LtZero));
    (* symlinkat, 2230-2235 *)
    (266, ([], LtZero));
    (* bind, 1755-1764 *)
    (49, ([Reg 0 0; Mem 1 1 128; Reg 2 2], LtZero));
    (* socket, 1766-1775 *)
    (41, ([Reg 0 0; Reg 1 1; Reg 2 2], LtZero));
    (* setns, 1745-1753 *)
    (308, ([Reg 0 0; Reg 1 1], LtZero));
    (* prlimit64, 1733-1743 *)
    (302, ([Reg 0 0; Reg 1 1; Mem 2 2 128; Mem 3 3 128], LtZero));
    (* mount, 1701-1711 *)
    (165, ([Mem 0 0 128; Mem 1 1 128; Mem 2 2 128; Reg 3 3], LtZero));
    (* umount2, 1713-1721 *)
    (166, ([Mem 0 0 128; Reg 1 1], LtZero));
    (* recvmsg, 1663-1672 *)
    (47, ([Reg 0 0; Mem 1 1 128; Reg 2 2], LtZero));
    (* setuid, 1631-1638 *)
    (105, ([Reg 0 0], LtZero));
    (* recvfrom, 1688-1699 *)
    (45, ([Reg 0 0; Mem 1 1 128; Reg 2 2; Reg 3 3; Mem 4 4 128], LtZero));
    (* sendto, 1674-1685 *)
    (44, ([Reg 0 0; Mem 1 1 128; Reg 2 2; Reg 3 3; Mem 4 4 128], LtZero));
    (* ptrace, 2148-2158 *)
    (101, ([Reg 0 0; Reg 1 1; Reg 2 2; Reg 3 3], LtZero));
    (* readlink, 2238-2247 *)
    (89, ([Mem 0 0 128; Mem 1 1 128; Reg 2 2], LtZero));
    (* readlinkat, 2249-2259 *)
    (267, ([Reg 0 0; Mem 1 1 128; Mem 2 2 128; Reg 3 3], LtZero));
    (* getpeername, 2261-2270 *)
    (52, ([Reg 0 0; Mem 1 1 128; Reg 2 2], LtZero));
    (* getsockname, 2272-2281 *)
    (51, ([Reg 0 0; Mem 1 1 128; Reg 2 2], LtZero));
    (* accept, 2283-2292 *)
    (43, ([Reg 0 0; Mem 1 1 128; Reg 2 2], LtZero));
    (* accept4, 2294-2304 *)
    (288, ([Reg 0 0; Mem 1 1 128; Reg 2 2; Reg 3 3], LtZero));
    (* mprotect, 2306-2316 *)
    (10, ([Reg 0 0; Reg 1 1; Reg 2 2; Mem 3 0 128], LtZero));
    (* setsockopt, 2318-2329 *)
    (54, ([Reg 0 0; Reg 1 1; Reg 2 2; Mem 3 3 128; Reg 4 4], LtZero));
    (* getsockopt, 2331-2342 *)
    (55, ([Reg 0 0; Reg 1 1; Reg 2 2; Mem 3 3 8; Mem 4 4 8], LtZero));
    (* creat, 2345-2353 *)
    (85, ([Mem 0 0 128; Reg 1 1], LtZero));
    (* init_module, 2355-2364 *)
    (175, ([Mem 0 0 128; Reg 1 1; Mem 2 2 128], LtZero));
    (* seccomp, 2366-2375 *)
    (317, ([Reg 0 0; Reg 1 1; Mem 2 2 128], LtZero));
    (* stat, 1925-1933 *)
    (4, ([Mem 0 0 128; Mem 1 1 128], LtZero));
    (* sethostname, 2377-2385 *)
    (170, ([Mem 0 0 128; Reg 1 1], LtZero));
    (* clone, 2387-2398 *)
    (56, ([Reg 0 0; Reg 1 1; Mem 2 2 128; Mem 3 3 128; Reg 4 4], LtZero));
    (* read, 2400-2409 *)
    (0, ([Reg 0 0; Mem 1 1 128; Reg 2 2], LtZero));
    (* write, 2411-2420 *)
    (1, ([Reg 0 0; Mem 1 1 128; Reg 2 2], LtZero));
    (* ioctl, 2422-2431 *)
    (16, ([Reg 0 0; Reg 1 1; Mem 2 2 128], LtZero));
    (* rename, 2433-2441 *)
    (82, ([Mem 0 0 128; Mem 1 1 128], LtZero));
    (* timerfd_settime, 2443-2453 *)
    (286, ([Reg 0 1; Reg 1 0; Mem 2 2 128; Mem 3 3 128], LtZero));
    (* timerfd_create, 2455-2463 *)
    (283, ([Reg 0 0; Reg 1 1], LtZero));
    (* mincore, 2465-2474 *)
    (27, ([Reg 0 0; Reg 1 1; Mem 2 2 128], LtZero));
    (* nanosleep, 2477-2485 *)
    (35, ([Mem 0 0 128; Mem 1 1 128], LtZero));
    (* rt_sigaction, 2487-2497 *)
    (13, ([Reg 0 0; Mem 1 1 128; Mem 2 2 128; Reg 3 3], LtZero));
    (* futex, 2499-2510 *)
    (202, ([Reg 0 0; Reg 1 1; Reg 2 2; Reg 3 3; Reg 4 4], LtZero));
    (* select, 2512-2523 *)
    (23, ([Reg 0 0; Reg 1 1; Reg 2 2; Reg 3 3; Reg 4 4], LtZero));
    (* exit, 2532-2539 *)
    (60, ([Reg 0 0], LtZero))
  ].

Definition filler (nr : Z) : option (list fill_op * err_kind) :=
  match List.find (fun e => Z.eqb (fst e) nr) fillers with
  | Some e => Some (snd e)
  | None => None
  end.

(** swoll__syscalls_execve (2760-2764): the file name and argv[1] to argv[4]. *)
Definition execve_ops : list fill_op :=
  [Mem 0 0 128; Vec 1 1 1; Vec 2 1 2; Vec 3 1 3; Vec 4 1 4].

Definition reg (regs : list Z) (i : nat) : Z := nth i regs 0.

Definition op_slot (op : fill_op) : nat :=
  match op with Reg s _ | Mem s _ _ | Vec s _ _ => s end.

(** The bytes a statement stores at the start of its slot. *)
Definition op_bytes (regs : list Z) (mem : memory) (op : fill_op) : list Z :=
  match op with
  | Reg _ r => to_le 8 (reg regs r)
  | Mem _ r n => probe_read mem (reg regs r) n
  | Vec _ r i =>
      let p := le (probe_read mem (reg regs r + 8 * Z.of_nat i) 8) in
      probe_read mem p arg_len
  end.

Definition fill (regs : list Z) (mem : memory) (args : list Z) (op : fill_op) : list Z :=
  write_at (slot_start (op_slot op)) (op_bytes regs mem op) args.

Record captured := Captured { c_args : list Z; c_ret : Z; c_errno : Z }.

(** swoll__exit from the switch on: [args] is what the scratch slots held before.
    A call without a case zeroes one byte of each slot and leaves ret and errno
    as swoll__event_fill_init zeroed them (2713-2721, 1371-1375). *)
Definition capture (nr : Z) (regs : list Z) (mem : memory) (ret : Z) (args : list Z) : captured :=
  match filler nr with
  | Some (ops, e) =>
      Captured (fold_left (fill regs mem) ops args) (RawModel.u32 ret) (errno_of e ret)
  | None =>
      Captured (fold_left (fun b s => write_at (slot_start s) [0] b) [0; 1; 2; 3; 4]%nat args) 0 0
  end.

(** swoll__syscalls_execve. *)
Definition capture_execve (regs : list Z) (mem : memory) (args : list Z) : captured :=
  Captured (fold_left (fill regs mem) execve_ops args) 0 0.

(** What the task and the machine contribute besides the fields [kevent] has:
    swoll__event_fill_init and swoll__event_fill_namespaces (1330-1386). *)
Record surroundings := Surroundings {
  su_ns_pid : Z; su_session : Z; su_uts_ns : Z; su_mnt_ns : Z; su_ipc_ns : Z;
  su_cgr_ns : Z; su_context_sw : Z; su_comm : list Z; su_mem : memory
}.

(** The scratch slots before this event. *)
Definition scratch_args (scratch : list Z) : list Z := take 640 (drop 96 scratch).

Definition capture_event (e : kevent) (su : surroundings) (scratch : list Z) : captured :=
  if Z.eqb (ev_nr e) nr_execve
  then capture_execve (ev_enter e) (su_mem su) (scratch_args scratch)
  else capture (ev_nr e) (ev_enter e) (su_mem su) (ev_ret e) (scratch_args scratch).

(** The members of the event when it is sent. *)
Definition event_members (e : kevent) (su : surroundings) (scratch : list Z) : kernel_event :=
  let c := capture_event e su scratch in
  {| k_pid_tid := ev_tid e; k_uid_gid := ev_ugid e; k_syscall := ev_nr e;
     k_ns_pid := su_ns_pid su; k_entr := ev_entr e; k_exit := ev_exit e;
     k_session := su_session su; k_pid_ns := ev_pidns e; k_uts_ns := su_uts_ns su;
     k_mnt_ns := su_mnt_ns su; k_ipc_ns := su_ipc_ns su; k_cgr_ns := su_cgr_ns su;
     k_context_sw := su_context_sw su; k_errno := c_errno c; k_ret := c_ret c;
     k_comm := su_comm su; k_args := c_args c |}.

(** The bytes given to bpf_perf_event_output. *)
Definition emit (e : kevent) (su : surroundings) (scratch : list Z) : list Z :=
  kernel_image (event_members e su scratch) scratch.
