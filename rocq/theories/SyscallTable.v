(** Generated from /repo/pkg/syscalls/consts.go (tables only, no code). *)
From Coq Require Import ZArith Strings.String List.
Import ListNotations.
Open Scope string_scope.

(** consts.go 4-338: gSyscallMap. *)
Definition gSyscallMap : list (string * Z) := [
  ("sys_read", 0%Z);
  ("sys_write", 1%Z);
  ("sys_open", 2%Z);
  ("sys_close", 3%Z);
  ("sys_stat", 4%Z);
  ("sys_fstat", 5%Z);
  ("sys_lstat", 6%Z);
  ("sys_poll", 7%Z);
  ("sys_lseek", 8%Z);
  ("sys_mmap", 9%Z);
  ("sys_mprotect", 10%Z);
  ("sys_munmap", 11%Z);
  ("sys_brk", 12%Z);
  ("sys_rt_sigaction", 13%Z);
  ("sys_rt_sigprocmask", 14%Z);
  ("sys_rt_sigreturn", 15%Z);
  ("sys_ioctl", 16%Z);
  ("sys_pread64", 17%Z);
  ("sys_pwrite64", 18%Z);
  ("sys_readv", 19%Z);
  ("sys_writev", 20%Z);
  ("sys_access", 21%Z);
  ("sys_pipe", 22%Z);
  ("sys_select", 23%Z);
  ("sys_sched_yield", 24%Z);
  ("sys_mremap", 25%Z);
  ("sys_msync", 26%Z);
  ("sys_mincore", 27%Z);
  ("sys_madvise", 28%Z);
  ("sys_shmget", 29%Z);
  ("sys_shmat", 30%Z);
  ("sys_shmctl", 31%Z);
  ("sys_dup", 32%Z);
  ("sys_dup2", 33%Z);
  ("sys_pause", 34%Z);
  ("sys_nanosleep", 35%Z);
  ("sys_getitimer", 36%Z);
  ("sys_alarm", 37%Z);
  ("sys_setitimer", 38%Z);
  ("sys_getpid", 39%Z);
  ("sys_sendfile", 40%Z);
  ("sys_socket", 41%Z);
  ("sys_connect", 42%Z);
  ("sys_accept", 43%Z);
  ("sys_sendto", 44%Z);
  ("sys_recvfrom", 45%Z);
  ("sys_sendmsg", 46%Z);
  ("sys_recvmsg", 47%Z);
  ("sys_shutdown", 48%Z);
  ("sys_bind", 49%Z);
  ("sys_listen", 50%Z);
  ("sys_getsockname", 51%Z);
  ("sys_getpeername", 52%Z);
  ("sys_socketpair", 53%Z);
  ("sys_setsockopt", 54%Z);
  ("sys_getsockopt", 55%Z);
  ("sys_clone", 56%Z);
  ("sys_fork", 57%Z);
  ("sys_vfork", 58%Z);
  ("sys_execve", 59%Z);
  ("sys_exit", 60%Z);
  ("sys_wait4", 61%Z);
  ("sys_kill", 62%Z);
  ("sys_uname", 63%Z);
  ("sys_semget", 64%Z);
  ("sys_semop", 65%Z);
  ("sys_semctl", 66%Z);
  ("sys_shmdt", 67%Z);
  ("sys_msgget", 68%Z);
  ("sys_msgsnd", 69%Z);
  ("sys_msgrcv", 70%Z);
  ("sys_msgctl", 71%Z);
  ("sys_fcntl", 72%Z);
  ("sys_flock", 73%Z);
  ("sys_fsync", 74%Z);
  ("sys_fdatasync", 75%Z);
  ("sys_truncate", 76%Z);
  ("sys_ftruncate", 77%Z);
  ("sys_getdents", 78%Z);
  ("sys_getcwd", 79%Z);
  ("sys_chdir", 80%Z);
  ("sys_fchdir", 81%Z);
  ("sys_rename", 82%Z);
  ("sys_mkdir", 83%Z);
  ("sys_rmdir", 84%Z);
  ("sys_creat", 85%Z);
  ("sys_link", 86%Z);
  ("sys_unlink", 87%Z);
  ("sys_symlink", 88%Z);
  ("sys_readlink", 89%Z);
  ("sys_chmod", 90%Z);
  ("sys_fchmod", 91%Z);
  ("sys_chown", 92%Z);
  ("sys_fchown", 93%Z);
  ("sys_lchown", 94%Z);
  ("sys_umask", 95%Z);
  ("sys_gettimeofday", 96%Z);
  ("sys_getrlimit", 97%Z);
  ("sys_getrusage", 98%Z);
  ("sys_sysinfo", 99%Z);
  ("sys_times", 100%Z);
  ("sys_ptrace", 101%Z);
  ("sys_getuid", 102%Z);
  ("sys_syslog", 103%Z);
  ("sys_getgid", 104%Z);
  ("sys_setuid", 105%Z);
  ("sys_setgid", 106%Z);
  ("sys_geteuid", 107%Z);
  ("sys_getegid", 108%Z);
  ("sys_setpgid", 109%Z);
  ("sys_getppid", 110%Z);
  ("sys_getpgrp", 111%Z);
  ("sys_setsid", 112%Z);
  ("sys_setreuid", 113%Z);
  ("sys_setregid", 114%Z);
  ("sys_getgroups", 115%Z);
  ("sys_setgroups", 116%Z);
  ("sys_setresuid", 117%Z);
  ("sys_getresuid", 118%Z);
  ("sys_setresgid", 119%Z);
  ("sys_getresgid", 120%Z);
  ("sys_getpgid", 121%Z);
  ("sys_setfsuid", 122%Z);
  ("sys_setfsgid", 123%Z);
  ("sys_getsid", 124%Z);
  ("sys_capget", 125%Z);
  ("sys_capset", 126%Z);
  ("sys_rt_sigpending", 127%Z);
  ("sys_rt_sigtimedwait", 128%Z);
  ("sys_rt_sigqueueinfo", 129%Z);
  ("sys_rt_sigsuspend", 130%Z);
  ("sys_sigaltstack", 131%Z);
  ("sys_utime", 132%Z);
  ("sys_mknod", 133%Z);
  ("sys_uselib", 134%Z);
  ("sys_personality", 135%Z);
  ("sys_ustat", 136%Z);
  ("sys_statfs", 137%Z);
  ("sys_fstatfs", 138%Z);
  ("sys_sysfs", 139%Z);
  ("sys_getpriority", 140%Z);
  ("sys_setpriority", 141%Z);
  ("sys_sched_setparam", 142%Z);
  ("sys_sched_getparam", 143%Z);
  ("sys_sched_setscheduler", 144%Z);
  ("sys_sched_getscheduler", 145%Z);
  ("sys_sched_get_priority_max", 146%Z);
  ("sys_sched_get_priority_min", 147%Z);
  ("sys_sched_rr_get_interval", 148%Z);
  ("sys_mlock", 149%Z);
  ("sys_munlock", 150%Z);
  ("sys_mlockall", 151%Z);
  ("sys_munlockall", 152%Z);
  ("sys_vhangup", 153%Z);
  ("sys_modify_ldt", 154%Z);
  ("sys_pivot_root", 155%Z);
  ("sys__sysctl", 156%Z);
  ("sys_prctl", 157%Z);
  ("sys_arch_prctl", 158%Z);
  ("sys_adjtimex", 159%Z);
  ("sys_setrlimit", 160%Z);
  ("sys_chroot", 161%Z);
  ("sys_sync", 162%Z);
  ("sys_acct", 163%Z);
  ("sys_settimeofday", 164%Z);
  ("sys_mount", 165%Z);
  ("sys_umount2", 166%Z);
  ("sys_swapon", 167%Z);
  ("sys_swapoff", 168%Z);
  ("sys_reboot", 169%Z);
  ("sys_sethostname", 170%Z);
  ("sys_setdomainname", 171%Z);
  ("sys_iopl", 172%Z);
  ("sys_ioperm", 173%Z);
  ("sys_create_module", 174%Z);
  ("sys_init_module", 175%Z);
  ("sys_delete_module", 176%Z);
  ("sys_get_kernel_syms", 177%Z);
  ("sys_query_module", 178%Z);
  ("sys_quotactl", 179%Z);
  ("sys_nfsservctl", 180%Z);
  ("sys_getpmsg", 181%Z);
  ("sys_putpmsg", 182%Z);
  ("sys_afs_syscall", 183%Z);
  ("sys_tuxcall", 184%Z);
  ("sys_security", 185%Z);
  ("sys_gettid", 186%Z);
  ("sys_readahead", 187%Z);
  ("sys_setxattr", 188%Z);
  ("sys_lsetxattr", 189%Z);
  ("sys_fsetxattr", 190%Z);
  ("sys_getxattr", 191%Z);
  ("sys_lgetxattr", 192%Z);
  ("sys_fgetxattr", 193%Z);
  ("sys_listxattr", 194%Z);
  ("sys_llistxattr", 195%Z);
  ("sys_flistxattr", 196%Z);
  ("sys_removexattr", 197%Z);
  ("sys_lremovexattr", 198%Z);
  ("sys_fremovexattr", 199%Z);
  ("sys_tkill", 200%Z);
  ("sys_time", 201%Z);
  ("sys_futex", 202%Z);
  ("sys_sched_setaffinity", 203%Z);
  ("sys_sched_getaffinity", 204%Z);
  ("sys_set_thread_area", 205%Z);
  ("sys_io_setup", 206%Z);
  ("sys_io_destroy", 207%Z);
  ("sys_io_getevents", 208%Z);
  ("sys_io_submit", 209%Z);
  ("sys_io_cancel", 210%Z);
  ("sys_get_thread_area", 211%Z);
  ("sys_lookup_dcookie", 212%Z);
  ("sys_epoll_create", 213%Z);
  ("sys_epoll_ctl_old", 214%Z);
  ("sys_epoll_wait_old", 215%Z);
  ("sys_remap_file_pages", 216%Z);
  ("sys_getdents64", 217%Z);
  ("sys_set_tid_address", 218%Z);
  ("sys_restart_syscall", 219%Z);
  ("sys_semtimedop", 220%Z);
  ("sys_fadvise64", 221%Z);
  ("sys_timer_create", 222%Z);
  ("sys_timer_settime", 223%Z);
  ("sys_timer_gettime", 224%Z);
  ("sys_timer_getoverrun", 225%Z);
  ("sys_timer_delete", 226%Z);
  ("sys_clock_settime", 227%Z);
  ("sys_clock_gettime", 228%Z);
  ("sys_clock_getres", 229%Z);
  ("sys_clock_nanosleep", 230%Z);
  ("sys_exit_group", 231%Z);
  ("sys_epoll_wait", 232%Z);
  ("sys_epoll_ctl", 233%Z);
  ("sys_tgkill", 234%Z);
  ("sys_utimes", 235%Z);
  ("sys_vserver", 236%Z);
  ("sys_mbind", 237%Z);
  ("sys_set_mempolicy", 238%Z);
  ("sys_get_mempolicy", 239%Z);
  ("sys_mq_open", 240%Z);
  ("sys_mq_unlink", 241%Z);
  ("sys_mq_timedsend", 242%Z);
  ("sys_mq_timedreceive", 243%Z);
  ("sys_mq_notify", 244%Z);
  ("sys_mq_getsetattr", 245%Z);
  ("sys_kexec_load", 246%Z);
  ("sys_waitid", 247%Z);
  ("sys_add_key", 248%Z);
  ("sys_request_key", 249%Z);
  ("sys_keyctl", 250%Z);
  ("sys_ioprio_set", 251%Z);
  ("sys_ioprio_get", 252%Z);
  ("sys_inotify_init", 253%Z);
  ("sys_inotify_add_watch", 254%Z);
  ("sys_inotify_rm_watch", 255%Z);
  ("sys_migrate_pages", 256%Z);
  ("sys_openat", 257%Z);
  ("sys_mkdirat", 258%Z);
  ("sys_mknodat", 259%Z);
  ("sys_fchownat", 260%Z);
  ("sys_futimesat", 261%Z);
  ("sys_newfstatat", 262%Z);
  ("sys_unlinkat", 263%Z);
  ("sys_renameat", 264%Z);
  ("sys_linkat", 265%Z);
  ("sys_symlinkat", 266%Z);
  ("sys_readlinkat", 267%Z);
  ("sys_fchmodat", 268%Z);
  ("sys_faccessat", 269%Z);
  ("sys_pselect6", 270%Z);
  ("sys_ppoll", 271%Z);
  ("sys_unshare", 272%Z);
  ("sys_set_robust_list", 273%Z);
  ("sys_get_robust_list", 274%Z);
  ("sys_splice", 275%Z);
  ("sys_tee", 276%Z);
  ("sys_sync_file_range", 277%Z);
  ("sys_vmsplice", 278%Z);
  ("sys_move_pages", 279%Z);
  ("sys_utimensat", 280%Z);
  ("sys_epoll_pwait", 281%Z);
  ("sys_signalfd", 282%Z);
  ("sys_timerfd_create", 283%Z);
  ("sys_eventfd", 284%Z);
  ("sys_fallocate", 285%Z);
  ("sys_timerfd_settime", 286%Z);
  ("sys_timerfd_gettime", 287%Z);
  ("sys_accept4", 288%Z);
  ("sys_signalfd4", 289%Z);
  ("sys_eventfd2", 290%Z);
  ("sys_epoll_create1", 291%Z);
  ("sys_dup3", 292%Z);
  ("sys_pipe2", 293%Z);
  ("sys_inotify_init1", 294%Z);
  ("sys_preadv", 295%Z);
  ("sys_pwritev", 296%Z);
  ("sys_rt_tgsigqueueinfo", 297%Z);
  ("sys_perf_event_open", 298%Z);
  ("sys_recvmmsg", 299%Z);
  ("sys_fanotify_init", 300%Z);
  ("sys_fanotify_mark", 301%Z);
  ("sys_prlimit64", 302%Z);
  ("sys_name_to_handle_at", 303%Z);
  ("sys_open_by_handle_at", 304%Z);
  ("sys_clock_adjtime", 305%Z);
  ("sys_syncfs", 306%Z);
  ("sys_sendmmsg", 307%Z);
  ("sys_setns", 308%Z);
  ("sys_getcpu", 309%Z);
  ("sys_process_vm_readv", 310%Z);
  ("sys_process_vm_writev", 311%Z);
  ("sys_kcmp", 312%Z);
  ("sys_finit_module", 313%Z);
  ("sys_sched_setattr", 314%Z);
  ("sys_sched_getattr", 315%Z);
  ("sys_renameat2", 316%Z);
  ("sys_seccomp", 317%Z);
  ("sys_getrandom", 318%Z);
  ("sys_memfd_create", 319%Z);
  ("sys_kexec_file_load", 320%Z);
  ("sys_bpf", 321%Z);
  ("sys_execveat", 322%Z);
  ("sys_userfaultfd", 323%Z);
  ("sys_membarrier", 324%Z);
  ("sys_mlock2", 325%Z);
  ("sys_copy_file_range", 326%Z);
  ("sys_preadv2", 327%Z);
  ("sys_pwritev2", 328%Z);
  ("sys_pkey_mprotect", 329%Z);
  ("sys_pkey_alloc", 330%Z);
  ("sys_pkey_free", 331%Z);
  ("sys_statx", 332%Z)
].

(** consts.go 340-754: gClassMap. *)
Definition gClassMap : list (string * list (string * list string)) := [
  ("FileSystem", [
    ("Files", ["sys_close"; "sys_creat"; "sys_open"; "sys_openat"; "sys_name_to_handle_at"; "sys_open_by_handle_at"; "sys_memfd_create"; "sys_mknod"; "sys_mknodat"; "sys_rename"; "sys_renameat"; "sys_renameat2"; "sys_truncate"; "sys_ftruncate"; "sys_fallocate"]);
    ("Directories", ["sys_mkdir"; "sys_mkdirat"; "sys_rmdir"; "sys_getcwd"; "sys_chdir"; "sys_fchdir"; "sys_chroot"; "sys_getdents"; "sys_getdents64"; "sys_lookup_dcookie"]);
    ("Links", ["sys_link"; "sys_linkat"; "sys_symlink"; "sys_symlinkat"; "sys_unlink"; "sys_unlinkat"; "sys_readlink"; "sys_readlinkat"]);
    ("BasicAttributes", ["sys_umask"; "sys_stat"; "sys_lstat"; "sys_fstat"; "sys_newfstatat"; "sys_chmod"; "sys_fchmod"; "sys_fchmodat"; "sys_chown"; "sys_lchown"; "sys_fchown"; "sys_fchownat"; "sys_utime"; "sys_utimes"; "sys_futimesat"; "sys_utimensat"; "sys_access"; "sys_faccessat"; "sys_statx"]);
    ("ExtendedAttributes", ["sys_setxattr"; "sys_lsetxattr"; "sys_fsetxattr"; "sys_getxattr"; "sys_lgetxattr"; "sys_fgetxattr"; "sys_listxattr"; "sys_flistxattr"; "sys_removexattr"; "sys_lremovexattr"; "sys_fremovexattr"; "sys_keyctl"; "sys_add_key"]);
    ("Descriptors", ["sys_ioctl"; "sys_fcntl"; "sys_dup"; "sys_dup2"; "sys_dup3"; "sys_flock"]);
    ("ReadWrite", ["sys_read"; "sys_readv"; "sys_pread64"; "sys_preadv"; "sys_write"; "sys_writev"; "sys_pwrite64"; "sys_pwritev"; "sys_lseek"; "sys_sendfile"]);
    ("SynchronizedIO", ["sys_fdatasync"; "sys_fsync"; "sys_msync"; "sys_sync_file_range"; "sys_sync"; "sys_syncfs"]);
    ("AsynchronousIO", ["sys_io_setup"; "sys_io_destroy"; "sys_io_submit"; "sys_io_cancel"; "sys_io_getevents"]);
    ("MultiplexedIO", ["sys_select"; "sys_pselect6"; "sys_poll"; "sys_ppoll"; "sys_epoll_create"; "sys_epoll_create1"; "sys_epoll_ctl"; "sys_epoll_wait"; "sys_epoll_pwait"]);
    ("Monitoring", ["sys_inotify_init"; "sys_inotify_init1"; "sys_inotify_add_watch"; "sys_inotify_rm_watch"; "sys_fanotify_init"; "sys_fanotify_mark"]);
    ("MiscellaneousFiles", ["sys_fadvise64"; "sys_readahead"; "sys_getrandom"])]);
  ("Network", [
    ("Sockets", ["sys_socket"; "sys_socketpair"; "sys_getsockopt"; "sys_setsockopt"; "sys_getsockname"; "sys_getpeername"; "sys_bind"; "sys_listen"; "sys_accept"; "sys_accept4"; "sys_connect"; "sys_shutdown"]);
    ("IO", ["sys_recvfrom"; "sys_recvmsg"; "sys_recvmmsg"; "sys_sendto"; "sys_sendmsg"; "sys_sendmmsg"]);
    ("Naming", ["sys_sethostname"; "sys_setdomainname"]);
    ("Filtering", ["sys_bpf"])]);
  ("Time", [
    ("TimeOfDay", ["sys_time"; "sys_settimeofday"; "sys_gettimeofday"]);
    ("POSIXClocks", ["sys_clock_settime"; "sys_clock_gettime"; "sys_clock_getres"; "sys_clock_adjtime"; "sys_clock_nanosleep"]);
    ("ClockTimers", ["sys_timer_create"; "sys_timer_delete"; "sys_timer_settime"; "sys_timer_gettime"; "sys_timer_getoverrun"]);
    ("SysTimers", ["sys_alarm"; "sys_setitimer"; "sys_getitimer"]);
    ("FileDescriptorTimers", ["sys_timerfd_create"; "sys_timerfd_settime"; "sys_timerfd_gettime"]);
    ("MiscellaneousTime", ["sys_adjtimex"; "sys_nanosleep"; "sys_times"])]);
  ("System", [
    ("Kernel", ["sys_create_module"; "sys_init_module"; "sys_finit_module"; "sys_delete_module"; "sys_get_kernel_syms"]);
    ("Accounting", ["sys_acct"; "sys_quotactl"]);
    ("PrivlidgedFileSystem", ["sys_pivot_root"; "sys_swapon"; "sys_swapoff"; "sys_mount"; "sys_umount2"; "sys_nfsservctl"]);
    ("UnprivledgedFileSystem", ["sys_ustat"; "sys_statfs"; "sys_fstatfs"; "sys_sysfs"]);
    ("MiscellaneousSystem", ["sys__sysctl"; "sys_syslog"; "sys_ioperm"; "sys_iopl"; "sys_personality"; "sys_vhangup"; "sys_reboot"; "sys_kexec_load"; "sys_kexec_file_load"; "sys_perf_event_open"; "sys_uname"; "sys_sysinfo"])]);
  ("Signals", [
    ("Standard", ["sys_kill"; "sys_tkill"; "sys_tgkill"; "sys_pause"]);
    ("RealTime", ["sys_rt_sigaction"; "sys_rt_sigprocmask"; "sys_rt_sigpending"; "sys_rt_sigqueueinfo"; "sys_rt_tgsigqueueinfo"; "sys_rt_sigtimedwait"; "sys_rt_sigsuspend"; "sys_rt_sigreturn"; "sys_sigaltstack"]);
    ("FileDescriptor", ["sys_signalfd"; "sys_signalfd4"; "sys_eventfd"; "sys_eventfd2"]);
    ("MiscellaneousSignals", ["sys_restart_syscall"])]);
  ("IPC", [
    ("Pipes", ["sys_pipe"; "sys_pipe2"; "sys_tee"; "sys_splice"; "sys_vmsplice"]);
    ("SharedMemory", ["sys_shmget"; "sys_shmctl"; "sys_shmat"; "sys_shmdt"]);
    ("Semaphore", ["sys_semget"; "sys_semctl"; "sys_semop"; "sys_semtimedop"]);
    ("Futex", ["sys_futex"; "sys_set_robust_list"; "sys_get_robust_list"]);
    ("MessageQueues", ["sys_msgget"; "sys_msgctl"; "sys_msgsnd"; "sys_msgrcv"; "sys_mq_open"; "sys_mq_unlink"; "sys_mq_getsetattr"; "sys_mq_timedsend"; "sys_mq_timedreceive"; "sys_mq_notify"])]);
  ("ProcessManagement", [
    ("Execution", ["sys_clone"; "sys_fork"; "sys_vfork"; "sys_execve"; "sys_execveat"; "sys_exit"; "sys_exit_group"; "sys_wait4"; "sys_waitid"]);
    ("Process", ["sys_getpid"; "sys_getppid"; "sys_gettid"]);
    ("Session", ["sys_setsid"; "sys_getsid"]);
    ("Group", ["sys_setpgid"; "sys_getpgid"; "sys_getpgrp"]);
    ("User", ["sys_setuid"; "sys_getuid"; "sys_setgid"; "sys_getgid"; "sys_setresuid"; "sys_getresuid"; "sys_setresgid"; "sys_getresgid"; "sys_setreuid"; "sys_setregid"; "sys_setfsuid"; "sys_geteuid"; "sys_getegid"; "sys_setgroups"; "sys_getgroups"]);
    ("Namespace", ["sys_setns"]);
    ("Scheduling", ["sys_sched_setattr"; "sys_sched_getattr"; "sys_sched_setscheduler"; "sys_sched_getscheduler"; "sys_sched_setparam"; "sys_sched_getparam"; "sys_sched_setaffinity"; "sys_sched_getaffinity"; "sys_sched_get_priority_max"; "sys_sched_get_priority_min"; "sys_sched_rr_get_interval"; "sys_sched_yield"; "sys_setpriority"; "sys_getpriority"; "sys_ioprio_set"; "sys_ioprio_get"]);
    ("Resources", ["sys_setrlimit"; "sys_getrlimit"; "sys_prlimit64"; "sys_getrusage"]);
    ("VirtualMemory", ["sys_brk"; "sys_mmap"; "sys_munmap"; "sys_mremap"; "sys_mprotect"; "sys_madvise"; "sys_mlock"; "sys_mlock2"; "sys_mlockall"; "sys_mincore"; "sys_membarrier"; "sys_modify_ldt"]);
    ("Threading", ["sys_capset"; "sys_capget"; "sys_set_thread_area"; "sys_get_thread_area"; "sys_set_tid_address"; "sys_arch_prctl"]);
    ("MiscellaneousPM", ["sys_uselib"; "sys_prctl"; "sys_seccomp"; "sys_ptrace"; "sys_process_vm_readv"; "sys_process_vm_writev"; "sys_kcmp"; "sys_unshare"])])
].
