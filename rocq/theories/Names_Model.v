(** The names of the tables of the instruction statistics, qtlib/ppcstats_private.c.
    Each list is in the order of its table, see [Stats_Model.exceptions] and
    [Stats_Model.hcalls] for addresses and tokens; system calls and OPAL calls
    are numbered by their place. *)
From Coq Require Import List String.
Import ListNotations.
Local Open Scope string_scope.

(* qtlib/ppcstats_private.c:18-46 *)
Definition exception_names : list string :=
  ["System Call/HCALL"; "Data Storage"; "Decrementer"; "Instruction Storage"; "Vector Unavail";
   "VSX Unavail"; "Facility Unavail"; "External"; "System Reset"; "Machine Check"; "Data Segment";
   "Instruction Segment"; "Alignment"; "Program"; "FP Unavail"; "HV Decrementer";
   "Directed Privil Doorbell"; "0xB00 Reserved"; "Trace"; "HV Data Storage";
   "HV Instruction Storage"; "HV Emulation Assistance"; "Hypervisor Maintenance";
   "Directed HV Doorbell"; "HV Virtualization"; "Performance Monitor"; "HV Facility Unavail"].
(* qtlib/ppcstats_private.c:56-447 *)
Definition syscall_names : list string :=
  ["restart_syscall"; "exit"; "fork"; "read"; "write"; "open"; "close"; "waitpid"; "creat"; "link";
   "unlink"; "execve"; "chdir"; "time"; "mknod"; "chmod"; "lchown"; "break"; "oldstat"; "lseek";
   "getpid"; "mount"; "umount"; "setuid"; "getuid"; "stime"; "ptrace"; "alarm"; "oldfstat";
   "pause"; "utime"; "stty"; "gtty"; "access"; "nice"; "ftime"; "sync"; "kill"; "rename"; "mkdir";
   "rmdir"; "dup"; "pipe"; "times"; "prof"; "brk"; "setgid"; "getgid"; "signal"; "geteuid";
   "getegid"; "acct"; "umount2"; "lock"; "ioctl"; "fcntl"; "mpx"; "setpgid"; "ulimit";
   "oldolduname"; "umask"; "chroot"; "ustat"; "dup2"; "getppid"; "getpgrp"; "setsid"; "sigaction";
   "sgetmask"; "ssetmask"; "setreuid"; "setregid"; "sigsuspend"; "sigpending"; "sethostname";
   "setrlimit"; "getrlimit"; "getrusage"; "gettimeofday"; "settimeofday"; "getgroups"; "setgroups";
   "select"; "symlink"; "oldlstat"; "readlink"; "uselib"; "swapon"; "reboot"; "readdir"; "mmap";
   "munmap"; "truncate"; "ftruncate"; "fchmod"; "fchown"; "getpriority"; "setpriority"; "profil";
   "statfs"; "fstatfs"; "ioperm"; "socketcall"; "syslog"; "setitimer"; "getitimer"; "stat";
   "lstat"; "fstat"; "olduname"; "iopl"; "vhangup"; "idle"; "vm86"; "wait4"; "swapoff"; "sysinfo";
   "ipc"; "fsync"; "sigreturn"; "clone"; "setdomainname"; "uname"; "modify_ldt"; "adjtimex";
   "mprotect"; "sigprocmask"; "create_module"; "init_module"; "delete_module"; "get_kernel_syms";
   "quotactl"; "getpgid"; "fchdir"; "bdflush"; "sysfs"; "personality"; "afs_syscall"; "setfsuid";
   "setfsgid"; "_llseek"; "getdents"; "_newselect"; "flock"; "msync"; "readv"; "writev"; "getsid";
   "fdatasync"; "_sysctl"; "mlock"; "munlock"; "mlockall"; "munlockall"; "sched_setparam";
   "sched_getparam"; "sched_setscheduler"; "sched_getscheduler"; "sched_yield";
   "sched_get_priority_max"; "sched_get_priority_min"; "sched_rr_get_interval"; "nanosleep";
   "mremap"; "setresuid"; "getresuid"; "query_module"; "poll"; "nfsservctl"; "setresgid";
   "getresgid"; "prctl"; "rt_sigreturn"; "rt_sigaction"; "rt_sigprocmask"; "rt_sigpending";
   "rt_sigtimedwait"; "rt_sigqueueinfo"; "rt_sigsuspend"; "pread64"; "pwrite64"; "chown"; "getcwd";
   "capget"; "capset"; "sigaltstack"; "sendfile"; "getpmsg"; "putpmsg"; "vfork"; "ugetrlimit";
   "readahead"; "mmap2"; "truncate64"; "ftruncate64"; "stat64"; "lstat64"; "fstat64";
   "pciconfig_read"; "pciconfig_write"; "pciconfig_iobase"; "multiplexer"; "getdents64";
   "pivot_root"; "fcntl64"; "madvise"; "mincore"; "gettid"; "tkill"; "setxattr"; "lsetxattr";
   "fsetxattr"; "getxattr"; "lgetxattr"; "fgetxattr"; "listxattr"; "llistxattr"; "flistxattr";
   "removexattr"; "lremovexattr"; "fremovexattr"; "futex"; "sched_setaffinity";
   "sched_getaffinity"; "UNKNOWN_224"; "tuxcall"; "sendfile64"; "io_setup"; "io_destroy";
   "io_getevents"; "io_submit"; "io_cancel"; "set_tid_address"; "fadvise64"; "exit_group";
   "lookup_dcookie"; "epoll_create"; "epoll_ctl"; "epoll_wait"; "remap_file_pages"; "timer_create";
   "timer_settime"; "timer_gettime"; "timer_getoverrun"; "timer_delete"; "clock_settime";
   "clock_gettime"; "clock_getres"; "clock_nanosleep"; "swapcontext"; "tgkill"; "utimes";
   "statfs64"; "fstatfs64"; "fadvise64_64"; "rtas"; "sys_debug_setcontext"; "reserved";
   "migrate_pages"; "mbind"; "get_mempolicy"; "set_mempolicy"; "mq_open"; "mq_unlink";
   "mq_timedsend"; "mq_timedreceive"; "mq_notify"; "mq_getsetattr"; "kexec_load"; "add_key";
   "request_key"; "keyctl"; "waitid"; "ioprio_set"; "ioprio_get"; "inotify_init";
   "inotify_add_watch"; "inotify_rm_watch"; "spu_run"; "spu_create"; "pselect6"; "ppoll";
   "unshare"; "splice"; "tee"; "vmsplice"; "openat"; "mkdirat"; "mknodat"; "fchownat"; "futimesat";
   "newfstatat"; "unlinkat"; "renameat"; "linkat"; "symlinkat"; "readlinkat"; "fchmodat";
   "faccessat"; "get_robust_list"; "set_robust_list"; "move_pages"; "getcpu"; "epoll_pwait";
   "utimensat"; "signalfd"; "timerfd_create"; "eventfd"; "sync_file_range2"; "fallocate";
   "subpage_prot"; "timerfd_settime"; "timerfd_gettime"; "signalfd4"; "eventfd2"; "epoll_create1";
   "dup3"; "pipe2"; "inotify_init1"; "perf_event_open"; "preadv"; "pwritev"; "rt_tgsigqueueinfo";
   "fanotify_init"; "fanotify_mark"; "prlimit64"; "socket"; "bind"; "connect"; "listen"; "accept";
   "getsockname"; "getpeername"; "socketpair"; "send"; "sendto"; "recv"; "recvfrom"; "shutdown";
   "setsockopt"; "getsockopt"; "sendmsg"; "recvmsg"; "recvmmsg"; "accept4"; "name_to_handle_at";
   "open_by_handle_at"; "clock_adjtime"; "syncfs"; "sendmmsg"; "setns"; "process_vm_readv";
   "process_vm_writev"; "finit_module"; "kcmp"; "sched_setattr"; "sched_getattr"; "renameat2";
   "seccomp"; "getrandom"; "memfd_create"; "bpf"; "execveat"; "switch_endian"; "userfaultfd";
   "membarrier"; "UNKNOWN_366"; "UNKNOWN_367"; "UNKNOWN_368"; "UNKNOWN_369"; "UNKNOWN_370";
   "UNKNOWN_371"; "UNKNOWN_372"; "UNKNOWN_373"; "UNKNOWN_374"; "UNKNOWN_375"; "UNKNOWN_376";
   "UNKNOWN_377"; "mlock2"; "copy_file_range"; "preadv2"; "pwritev2"; "kexec_file_load"; "statx";
   "pkey_alloc"; "pkey_free"; "pkey_mprotect"; "rseq"; "io_pgetevents"; "UNKNOWN"].
(* qtlib/ppcstats_private.c:450-622 *)
Definition opal_names : list string :=
  ["TEST"; "CONSOLE_WRITE"; "CONSOLE_READ"; "RTC_READ"; "RTC_WRITE"; "CEC_POWER_DOWN";
   "CEC_REBOOT"; "READ_NVRAM"; "WRITE_NVRAM"; "HANDLE_INTERRUPT"; "POLL_EVENTS";
   "PCI_SET_HUB_TCE_MEMORY"; "PCI_SET_PHB_TCE_MEMORY"; "PCI_CONFIG_READ_BYTE";
   "PCI_CONFIG_READ_HALF_WORD"; "PCI_CONFIG_READ_WORD"; "PCI_CONFIG_WRITE_BYTE";
   "PCI_CONFIG_WRITE_HALF_WORD"; "PCI_CONFIG_WRITE_WORD"; "SET_XIVE"; "GET_XIVE";
   "OPAL_GET_COMPLETION_TOKEN_STATUS"; "REGISTER_OPAL_EXCEPTION_HANDLER"; "PCI_EEH_FREEZE_STATUS";
   "PCI_SHPC"; "CONSOLE_WRITE_BUFFER_SPACE"; "PCI_EEH_FREEZE_CLEAR"; "PCI_PHB_MMIO_ENABLE";
   "PCI_SET_PHB_MEM_WINDOW"; "PCI_MAP_PE_MMIO_WINDOW"; "PCI_SET_PHB_TABLE_MEMORY"; "PCI_SET_PE";
   "PCI_SET_PELTV"; "PCI_SET_MVE"; "PCI_SET_MVE_ENABLE"; "PCI_GET_XIVE_REISSUE";
   "PCI_SET_XIVE_REISSUE"; "PCI_SET_XIVE_PE"; "GET_XIVE_SOURCE"; "GET_MSI_32"; "GET_MSI_64";
   "START_CPU"; "QUERY_CPU_STATUS"; "WRITE_OPPANEL"; "PCI_MAP_PE_DMA_WINDOW";
   "PCI_MAP_PE_DMA_WINDOW_REAL"; "UNKNOWN_46"; "UNKNOWN_47"; "UNKNOWN_48"; "PCI_RESET";
   "PCI_GET_HUB_DIAG_DATA"; "PCI_GET_PHB_DIAG_DATA"; "PCI_FENCE_PHB"; "PCI_REINIT";
   "PCI_MASK_PE_ERROR"; "SET_SLOT_LED_STATUS"; "GET_EPOW_STATUS"; "SET_SYSTEM_ATTENTION_LED";
   "RESERVED1"; "RESERVED2"; "PCI_NEXT_ERROR"; "PCI_EEH_FREEZE_STATUS2"; "PCI_POLL"; "PCI_MSI_EOI";
   "PCI_GET_PHB_DIAG_DATA2"; "XSCOM_READ"; "XSCOM_WRITE"; "LPC_READ"; "LPC_WRITE"; "RETURN_CPU";
   "REINIT_CPUS"; "ELOG_READ"; "ELOG_WRITE"; "ELOG_ACK"; "ELOG_RESEND"; "ELOG_SIZE";
   "FLASH_VALIDATE"; "FLASH_MANAGE"; "FLASH_UPDATE"; "RESYNC_TIMEBASE"; "CHECK_TOKEN"; "DUMP_INIT";
   "DUMP_INFO"; "DUMP_READ"; "DUMP_ACK"; "GET_MSG"; "CHECK_ASYNC_COMPLETION"; "SYNC_HOST_REBOOT";
   "SENSOR_READ"; "GET_PARAM"; "SET_PARAM"; "DUMP_RESEND"; "ELOG_SEND"; "PCI_SET_PHB_CAPI_MODE";
   "DUMP_INFO2"; "WRITE_OPPANEL_ASYNC"; "PCI_ERR_INJECT"; "PCI_EEH_FREEZE_SET"; "HANDLE_HMI";
   "CONFIG_CPU_IDLE_STATE"; "SLW_SET_REG"; "REGISTER_DUMP_REGION"; "UNREGISTER_DUMP_REGION";
   "WRITE_TPO"; "READ_TPO"; "GET_DPO_STATUS"; "OLD_I2C_REQUEST"; "IPMI_SEND"; "IPMI_RECV";
   "I2C_REQUEST"; "FLASH_READ"; "FLASH_WRITE"; "FLASH_ERASE"; "PRD_MSG"; "LEDS_GET_INDICATOR";
   "LEDS_SET_INDICATOR"; "CEC_REBOOT2"; "CONSOLE_FLUSH"; "GET_DEVICE_TREE";
   "PCI_GET_PRESENCE_STATE"; "PCI_GET_POWER_STATE"; "PCI_SET_POWER_STATE"; "INT_GET_XIRR";
   "INT_SET_CPPR"; "INT_EOI"; "INT_SET_MFRR"; "PCI_TCE_KILL"; "NMMU_SET_PTCR"; "XIVE_RESET";
   "XIVE_GET_IRQ_INFO"; "XIVE_GET_IRQ_CONFIG"; "XIVE_SET_IRQ_CONFIG"; "XIVE_GET_QUEUE_INFO";
   "XIVE_SET_QUEUE_INFO"; "XIVE_DONATE_PAGE"; "XIVE_ALLOCATE_VP_BLOCK"; "XIVE_FREE_VP_BLOCK";
   "XIVE_GET_VP_INFO"; "XIVE_SET_VP_INFO"; "XIVE_ALLOCATE_IRQ"; "XIVE_FREE_IRQ"; "XIVE_SYNC";
   "XIVE_DUMP"; "XIVE_RESERVED3"; "XIVE_RESERVED4"; "SIGNAL_SYSTEM_RESET"; "NPU_INIT_CONTEXT";
   "NPU_DESTROY_CONTEXT"; "NPU_MAP_LPAR"; "IMC_COUNTERS_INIT"; "IMC_COUNTERS_START";
   "IMC_COUNTERS_STOP"; "GET_POWERCAP"; "SET_POWERCAP"; "GET_POWER_SHIFT_RATIO";
   "SET_POWER_SHIFT_RATIO"; "SENSOR_GROUP_CLEAR"; "PCI_SET_P2P"; "QUIESCE"; "NPU_SPA_SETUP";
   "NPU_SPA_CLEAR_CACHE"; "NPU_TL_SET"; "SENSOR_READ_U64"; "SENSOR_GROUP_ENABLE";
   "PCI_GET_PBCQ_TUNNEL_BAR"; "PCI_SET_PBCQ_TUNNEL_BAR"; "HANDLE_HMI2"; "NX_COPROC_INIT";
   "NPU_SET_RELAXED_ORDER"; "NPU_GET_RELAXED_ORDER"; "UNKNOWN"].
(* qtlib/ppcstats_private.c:632-780 *)
Definition hcall_names : list string :=
  ["H_UNUSED"; "H_REMOVE"; "H_ENTER"; "H_READ"; "H_CLEAR_MOD"; "H_CLEAR_REF"; "H_PROTECT";
   "H_GET_TCE"; "H_PUT_TCE"; "H_SET_SPRG0"; "H_SET_DABR"; "H_PAGE_INIT"; "H_SET_ASR"; "H_ASR_ON";
   "H_ASR_OFF"; "H_LOGICAL_CI_LOAD"; "H_LOGICAL_CI_STORE"; "H_LOGICAL_CACHE_LOAD";
   "H_LOGICAL_CACHE_STORE"; "H_LOGICAL_ICBI"; "H_LOGICAL_DCBF"; "H_GET_TERM_CHAR";
   "H_PUT_TERM_CHAR"; "H_REAL_TO_LOGICAL"; "H_HYPERVISOR_DATA"; "H_EOI"; "H_CPPR"; "H_IPI";
   "H_IPOLL"; "H_XIRR"; "H_PERFMON"; "H_MIGRATE_DMA"; "H_REGISTER_VPA"; "H_CEDE"; "H_CONFER";
   "H_PROD"; "H_GET_PPP"; "H_SET_PPP"; "H_PURR"; "H_PIC"; "H_REG_CRQ"; "H_FREE_CRQ";
   "H_VIO_SIGNAL"; "H_SEND_CRQ"; "H_COPY_RDMA"; "H_REGISTER_LOGICAL_LAN"; "H_FREE_LOGICAL_LAN";
   "H_ADD_LOGICAL_LAN_BUFFER"; "H_SEND_LOGICAL_LAN"; "H_BULK_REMOVE"; "H_MULTICAST_CTRL";
   "H_SET_XDABR"; "H_STUFF_TCE"; "H_PUT_TCE_INDIRECT"; "H_CHANGE_LOGICAL_LAN_MAC";
   "H_VTERM_PARTNER_INFO"; "H_REGISTER_VTERM"; "H_FREE_VTERM"; "H_RESET_EVENTS";
   "H_ALLOC_RESOURCE"; "H_FREE_RESOURCE"; "H_MODIFY_QP"; "H_QUERY_QP"; "H_REREGISTER_PMR";
   "H_REGISTER_SMR"; "H_QUERY_MR"; "H_QUERY_MW"; "H_QUERY_HCA"; "H_QUERY_PORT"; "H_MODIFY_PORT";
   "H_DEFINE_AQP1"; "H_GET_TRACE_BUFFER"; "H_DEFINE_AQP0"; "H_RESIZE_MR"; "H_ATTACH_MCQP";
   "H_DETACH_MCQP"; "H_CREATE_RPT"; "H_REMOVE_RPT"; "H_REGISTER_RPAGES"; "H_DISABLE_AND_GETC";
   "H_ERROR_DATA"; "H_GET_HCA_INFO"; "H_GET_PERF_COUNT"; "H_MANAGE_TRACE";
   "H_GET_CPU_CHARACTERISTICS"; "H_FREE_LOGICAL_LAN_BUFFER"; "H_QUERY_INT_STATE"; "H_POLL_PENDING";
   "H_ILLAN_ATTRIBUTES"; "H_MODIFY_HEA_QP"; "H_QUERY_HEA_QP"; "H_QUERY_HEA"; "H_QUERY_HEA_PORT";
   "H_MODIFY_HEA_PORT"; "H_REG_BCMC"; "H_DEREG_BCMC"; "H_REGISTER_HEA_RPAGES";
   "H_DISABLE_AND_GET_HEA"; "H_GET_HEA_INFO"; "H_ALLOC_HEA_RESOURCE"; "H_ADD_CONN"; "H_DEL_CONN";
   "H_JOIN"; "H_VASI_STATE"; "H_VIOCTL"; "H_ENABLE_CRQ"; "H_GET_EM_PARMS"; "H_SET_MPP";
   "H_GET_MPP"; "H_REG_SUB_CRQ"; "H_HOME_NODE_ASSOCIATIVITY"; "H_FREE_SUB_CRQ"; "H_SEND_SUB_CRQ";
   "H_SEND_SUB_CRQ_INDIRECT"; "H_BEST_ENERGY"; "H_XIRR_X"; "H_RANDOM"; "H_COP"; "H_GET_MPP_X";
   "H_SET_MODE"; "H_BLOCK_REMOVE"; "H_CLEAR_HPT"; "H_REQUEST_VMC"; "H_RESIZE_HPT_PREPARE";
   "H_RESIZE_HPT_COMMIT"; "H_REGISTER_PROC_TBL"; "H_SIGNAL_SYS_RESET"; "H_INT_GET_SOURCE_INFO";
   "H_INT_SET_SOURCE_CONFIG"; "H_INT_GET_SOURCE_CONFIG"; "H_INT_GET_QUEUE_INFO";
   "H_INT_SET_QUEUE_CONFIG"; "H_INT_GET_QUEUE_CONFIG"; "H_INT_SET_OS_REPORTING_LINE";
   "H_INT_GET_OS_REPORTING_LINE"; "H_INT_ESB"; "H_INT_SYNC"; "H_INT_RESET"; "H_SCM_READ_METADATA";
   "H_SCM_WRITE_METADATA"; "H_SCM_BIND_MEM"; "H_SCM_UNBIND_MEM"; "H_SCM_QUERY_BLOCK_MEM_BINDING";
   "H_SCM_QUERY_LOGICAL_MEM_BINDING"; "H_SCM_MEM_QUERY"; "H_SCM_BLOCK_CLEAR"; "H_UNKNOWN"].
