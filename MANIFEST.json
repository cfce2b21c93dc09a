{
 "claims": [
  {
   "property": "C01",
   "status": "proved",
   "theorems": [
    "c01_unsigned_unique",
    "c01_signed_unique",
    "c01_to_unsigned",
    "c01_to_signed",
    "c01_word_aliases",
    "c01_roundtrip_signed",
    "c01_roundtrip_unsigned"
   ],
   "note": ""
  },
  {
   "property": "C02",
   "status": "proved",
   "theorems": [
    "c02_hex_reads_back",
    "c02_hex_text_functional",
    "c02_hex_width",
    "c02_word_hex",
    "c02_address_null",
    "c02_address_hex",
    "c02_address_injective",
    "c02_address_range"
   ],
   "note": ""
  },
  {
   "property": "C03",
   "status": "partial",
   "theorems": [
    "c03_big_endian_exact",
    "c03_ntoh_little_endian_partial",
    "c03_ntoh_big_endian_refuted",
    "c03_ntoh_involutive",
    "c03_ntoh_out_of_range"
   ],
   "note": "Proved for little-endian hosts; on big-endian hosts the functions swap bytes although none should be swapped (c03_ntoh_big_endian_refuted): the code violates the property there. Involution and range check proved on all platforms. c03_big_endian_exact: exactly when the result is right there."
  },
  {
   "property": "C04",
   "status": "proved",
   "theorems": [
    "c04_word_roundtrip",
    "c04_bytes_roundtrip",
    "c04_word_domain",
    "c04_bytes_domain"
   ],
   "note": ""
  },
  {
   "property": "C05",
   "status": "proved",
   "theorems": [
    "c05_readbits_display",
    "c05_display_unique",
    "c05_readbits_simple",
    "c05_named_justified",
    "c05_formatbits"
   ],
   "note": ""
  },
  {
   "property": "C06",
   "status": "partial",
   "theorems": [
    "c06_mmap_prot",
    "c06_access_mode",
    "c06_open_flags",
    "c06_tables_simple",
    "c06_tmpfile_refuted",
    "c06_open_mode",
    "c06_clone_flags",
    "c06_clone_signal_twice_refuted",
    "c06_dirfd",
    "c06_octal_reads_back"
   ],
   "note": "Proved, with two corner cases where the shipped tables make the text differ from the property: O_TMPFILE is shown as O_DIRECTORY|O_TMPFILE and the clone termination signal is listed twice (refuted theorems)."
  },
  {
   "property": "C07",
   "status": "proved",
   "theorems": [
    "c07_minmax",
    "c07_nearest_unique",
    "c07_log_level",
    "c07_log_func"
   ],
   "note": ""
  },
  {
   "property": "C08",
   "status": "partial",
   "theorems": [
    "c08_eax_exact",
    "c08_iopl_exact",
    "c08_sub_register_partial",
    "c08_full_register",
    "c08_unknown",
    "c08_read_only",
    "c08_eax_refuted",
    "c08_iopl_refuted",
    "c08_freebsd_flags",
    "c08_powerpc",
    "c08_no_overlap"
   ],
   "note": "Full registers proved on every Linux architecture, sub-registers and flags for every correct table entry. Violated by the code: eax..edx of x86_64 are the upper halves, iopl keeps one bit only, flags are unknown on FreeBSD/amd64. c08_eax_exact, c08_iopl_exact: exactly what is read then."
  },
  {
   "property": "C09",
   "status": "partial",
   "theorems": [
    "c09_high_exact",
    "c09_full_register",
    "c09_low_part_partial",
    "c09_failure",
    "c09_ah_refuted",
    "c09_eax_type_error"
   ],
   "note": "Proved for full registers and sub-registers starting at bit 0. Violated by the code for shifted sub-registers (ah overwrites the low byte); writing eax on x86_64 raises TypeError. c09_high_exact: exactly when."
  },
  {
   "property": "C10",
   "status": "proved",
   "theorems": [
    "c10_read_exact",
    "c10_read_fails",
    "c10_bytes_unique",
    "c10_read_only"
   ],
   "note": ""
  },
  {
   "property": "C11",
   "status": "partial",
   "theorems": [
    "c11_high_exact",
    "c11_short_exact",
    "c11_closed_exact",
    "c11_same_bytes",
    "c11_only_true_bytes",
    "c11_switch",
    "c11_permanent",
    "c11_bsd",
    "c11_short_read_refuted",
    "c11_high_address_refuted",
    "c11_bsd_padding_refuted",
    "c11_bsd_any"
   ],
   "note": "Equality of the paths proved for fully mapped ranges. The code violates 'exactly size bytes or raise': short data at the end of a mapping, zero padding on BSD, OverflowError for addresses >= 2^63 (refuted theorems with witnesses). c11_high_exact, c11_short_exact, c11_closed_exact: what happens then for any address and any file."
  },
  {
   "property": "C12",
   "status": "partial",
   "theorems": [
    "c12_write_exact",
    "c12_write_succeeds",
    "c12_write_then_read",
    "c12_written_meaning",
    "c12_bsd",
    "c12_cptrace_refuted",
    "c12_bsd_short_refuted",
    "c12_bsd_any"
   ],
   "note": "Proved for the ctypes backend and, whenever the call succeeds, for the C extension. Violations shown: the C extension rejects words >= 2^63, BSD reports short writes as success."
  },
  {
   "property": "C13",
   "status": "proved",
   "theorems": [
    "c13_prefix",
    "c13_prefix_bsd"
   ],
   "note": ""
  },
  {
   "property": "C14",
   "status": "partial",
   "theorems": [
    "c14_cstring",
    "c14_not_truncated",
    "c14_truncated_flag_refuted",
    "c14_end_of_mapping_refuted"
   ],
   "note": "Content proved exact; 'flag false => not cut' proved. The converse is violated by the code (flag set although nothing was cut), and the fallback path fails at the end of a mapping."
  },
  {
   "property": "C15",
   "status": "partial",
   "theorems": [
    "c15_struct_exact",
    "c15_struct",
    "c15_array",
    "c15_short_struct_refuted",
    "c15_short_array_refuted"
   ],
   "note": "Proved for fully mapped structures; a structure running past the end of the mapping makes the code read beyond its buffer (refuted theorem). c15_struct_exact: exactly when this happens."
  },
  {
   "property": "C16",
   "status": "partial",
   "theorems": [
    "c16_install",
    "c16_sequences_partial",
    "c16_all_removed",
    "c16_set_ip",
    "c16_overlap_refuted",
    "c16_nested"
   ],
   "note": "Proved for any interleaving without overlapping live breakpoints (Linux, ctypes). The code accepts overlapping breakpoints; removing them in creation order leaves a trap in memory (refuted), removing them in the reverse order restores it (c16_nested)."
  },
  {
   "property": "C17",
   "status": "proved",
   "theorems": [
    "c17_find_iff",
    "c17_find_live",
    "c17_create_refused",
    "c17_create_error_iff",
    "c17_desinstall_twice",
    "c17_remove"
   ],
   "note": ""
  },
  {
   "property": "C18",
   "status": "proved",
   "theorems": [
    "c18_search",
    "c18_any_memory",
    "c18_empty_pattern",
    "c18_blocks"
   ],
   "note": "Proved for every non-empty pattern. The empty pattern makes the generator run forever (c18_empty_pattern)."
  },
  {
   "property": "C19",
   "status": "partial",
   "theorems": [
    "c19_line",
    "c19_file_partial",
    "c19_minor_refuted",
    "c19_trailing_space_refuted",
    "c19_carriage_return_refuted",
    "c19_not_linux",
    "c19_open_error",
    "c19_contains",
    "c19_str",
    "c19_stack",
    "c19_no_stack",
    "c19_text",
    "c19_dump",
    "c19_newlines"
   ],
   "note": "Round trip proved for device numbers below 0x1000 and file names without carriage return and without leading/trailing white space. The code violates the property otherwise: minor numbers of four digits are rejected, trailing white space is lost, a carriage return cuts the line (refuted theorems)."
  },
  {
   "property": "C20",
   "status": "partial",
   "theorems": [
    "c20_file_exact",
    "c20_state",
    "c20_file_partial",
    "c20_carriage_return_refuted",
    "c20_short"
   ],
   "note": "Parsing of the text proved for every program name. Through the file: the file is opened in text mode with universal newlines, so a carriage return in the name is changed (c20_carriage_return_refuted); proved for all other names. c20_file_exact: exactly what is returned."
  },
  {
   "property": "C21",
   "status": "partial",
   "theorems": [
    "c21_list_exact",
    "c21_read_unique",
    "c21_list_partial",
    "c21_no_last_nul",
    "c21_carriage_return_refuted",
    "c21_unreadable",
    "c21_cmdline",
    "c21_fallback",
    "c21_statm",
    "c21_processes",
    "c21_search",
    "c21_search_first"
   ],
   "note": "Round trip proved for arguments without carriage return; with one the code returns a newline instead (refuted theorem). c21_list_exact: exactly what is returned."
  },
  {
   "property": "C22",
   "status": "partial",
   "theorems": [
    "c22_fails_exact",
    "c22_first_fit",
    "c22_unique",
    "c22_total",
    "c22_counts",
    "c22_text",
    "c22_no_equals_refuted"
   ],
   "note": "Selection, order, total and counts proved for every environment. An environment string without '=' makes the dump raise TypeError (c22_no_equals_refuted). c22_fails_exact: exactly when."
  },
  {
   "property": "C23",
   "status": "proved",
   "theorems": [
    "c23_exited",
    "c23_exited_any_platform",
    "c23_killed",
    "c23_stopped",
    "c23_exec",
    "c23_new_process",
    "c23_other_event",
    "c23_meaningless",
    "c23_encode"
   ],
   "note": "Every status class, with the state change. Exact result on Linux; on BSD, where an exit status makes the code wait once more, proved for the event returned."
  },
  {
   "property": "C24",
   "status": "proved",
   "theorems": [
    "c24_exit_event",
    "c24_status_text",
    "c24_core_bit",
    "c24_other_events"
   ],
   "note": ""
  },
  {
   "property": "C25",
   "status": "proved",
   "theorems": [
    "c25_known",
    "c25_preferred",
    "c25_first",
    "c25_unknown",
    "c25_distinct",
    "c25_linux"
   ],
   "note": ""
  },
  {
   "property": "C26",
   "status": "partial",
   "theorems": [
    "c26_registry",
    "c26_attached_registered",
    "c26_direct_delete_refuted"
   ],
   "note": "Proved for every history that does not call deleteProcess() directly (nothing in the library does that before detaching); with direct calls the code can make list and dict disagree (refuted)."
  },
  {
   "property": "C27",
   "status": "partial",
   "theorems": [
    "c27_duplicate",
    "c27_attach_fails",
    "c27_exit_partial",
    "c27_success",
    "c27_strange_status_refuted",
    "c27_exec_event_refuted",
    "c27_setoptions_refuted",
    "c27_left_partial"
   ],
   "note": "The code violates the property: the error path of addProcess clears is_attached before calling detach(), which is then a no-op, and a failing setoptions() is not handled (three refuted theorems). Proved: duplicate pid, refused attach, and death during the handshake leave nothing behind; and exactly when the process is left in the registry on Linux: whenever the error is not the end of that very process (c27_left_partial)."
  },
  {
   "property": "C28",
   "status": "partial",
   "theorems": [
    "c28_at_most_once",
    "c28_detach",
    "c28_again",
    "c28_failure_refuted",
    "c28_failure_exact"
   ],
   "note": "At most one PTRACE_DETACH over every history, including direct deletions; exact effect when the kernel accepts. When it refuses, the code leaves the process registered (refuted). c28_failure_exact: what happens then in any state."
  },
  {
   "property": "C29",
   "status": "partial",
   "theorems": [
    "c29_signals_only_started",
    "c29_none_left_partial",
    "c29_order",
    "c29_left_over_refuted"
   ],
   "note": "Signals only to started processes for every kernel (Linux); order and exact requests for a kernel that accepts them; nothing left if every registered process is attached. Violated after a failed addProcess (refuted)."
  },
  {
   "property": "C30",
   "status": "proved",
   "theorems": [
    "c30_equation",
    "c30_unknown_pid",
    "c30_own_event",
    "c30_thread_not_linux"
   ],
   "note": "Linux; pid 0 means 'any process' in the code and is excluded."
  },
  {
   "property": "C31",
   "status": "proved",
   "theorems": [
    "c31_first_ready",
    "c31_none_ready",
    "c31_single",
    "c31_no_process",
    "c31_known_pids"
   ],
   "note": "Linux. With no registered process the code raises IndexError (c31_no_process)."
  },
  {
   "property": "C32",
   "status": "proved",
   "theorems": [
    "c32_returns",
    "c32_raises",
    "c32_blocking_has_event",
    "c32_syscall"
   ],
   "note": ""
  },
  {
   "property": "C33",
   "status": "proved",
   "theorems": [
    "c33_cont",
    "c33_syscall",
    "c33_never_sigtrap",
    "c33_openbsd"
   ],
   "note": ""
  },
  {
   "property": "C34",
   "status": "partial",
   "theorems": [
    "c34_parity",
    "c34_failed_enter",
    "c34_pairs",
    "c34_exec_trap",
    "c34_skip",
    "c34_failed_exec_refuted"
   ],
   "note": "Alternation, pairing and ignored calls proved for every sequence of stops and clear() calls that raises no exception. The code violates the execve part: the stop after a FAILED execve is skipped as well, so the enter of the next call is lost (c34_failed_exec_refuted)."
  },
  {
   "property": "C35",
   "status": "proved",
   "theorems": [
    "c35_exit",
    "c35_integer",
    "c35_pointer",
    "c35_always_long"
   ],
   "note": "Every value and every result type. All prototypes have the result type long, so pointer results of mmap or brk are shown as integers (c35_always_long)."
  },
  {
   "property": "C36",
   "status": "proved",
   "theorems": [
    "c36_number",
    "c36_number_register",
    "c36_number_register_bsd",
    "c36_registers_exist",
    "c36_known",
    "c36_unknown",
    "c36_bsd_i386",
    "c36_instr_pointer"
   ],
   "note": ""
  },
  {
   "property": "C37",
   "status": "proved",
   "theorems": [
    "c37_format",
    "c37_no_exception",
    "c37_kept_unique",
    "c37_argument",
    "c37_add",
    "c37_key",
    "c37_cached",
    "c37_unnamed"
   ],
   "note": ""
  },
  {
   "property": "C38",
   "status": "partial",
   "theorems": [
    "c38_integers_partial",
    "c38_int",
    "c38_ulong",
    "c38_size_refuted",
    "c38_uid_refuted",
    "c38_unsigned_refuted"
   ],
   "note": "Exact characterisation: the number is shown iff it fits a signed 32-bit integer (or, for unsigned int/unsigned long/u32, iff the register holds exactly this number). The code violates the property for large size_t/long, for uid_t/gid_t/socklen_t >= 2^31 and for unsigned int with garbage in the upper half of the register (refuted with witnesses)."
  },
  {
   "property": "C39",
   "status": "partial",
   "theorems": [
    "c39_terminated",
    "c39_many_partial",
    "c39_bounded",
    "c39_ends",
    "c39_execve",
    "c39_more_refuted"
   ],
   "note": "All clauses proved except \"more than N only when there are more than N\": the remark is printed with exactly N strings too (c39_more_refuted)."
  },
  {
   "property": "C40",
   "status": "partial",
   "theorems": [
    "c40_numbers",
    "c40_numbers_refuted",
    "c40_setup",
    "c40_setup_sound",
    "c40_first",
    "c40_enter",
    "c40_enter_refuted"
   ],
   "note": "Numbers 1-17 of linux/net.h and their arguments, also at the enter of a call; 18-20 (accept4, recvmmsg, sendmmsg) are missing in the table: enter() raises KeyError (refuted)."
  },
  {
   "property": "C41",
   "status": "partial",
   "theorems": [
    "c41_ipv4_linux_partial",
    "c41_ipv4_bsd_partial",
    "c41_ipv6_linux_partial",
    "c41_big_endian_refuted",
    "c41_ipv4_big_endian"
   ],
   "note": "Proved on little-endian processors for Linux and BSD; on big-endian ones bytes are swapped (c41_big_endian_refuted). c41_ipv4_big_endian: exactly what is shown there (IPv4)."
  },
  {
   "property": "C42",
   "status": "partial",
   "theorems": [
    "c42_bounds",
    "c42_frames",
    "c42_no_depth",
    "c42_terminates",
    "c42_return_address_refuted",
    "c42_command",
    "c42_frame_text"
   ],
   "note": "Proved; finding: an unreadable return address raises PtraceError out of getBacktrace (c42_return_address_refuted) although an unreadable frame pointer ends the trace."
  },
  {
   "property": "C43",
   "status": "partial",
   "theorems": [
    "c43_safe",
    "c43_value",
    "c43_accepts",
    "c43_errors_partial",
    "c43_origin",
    "c43_value_error_refuted",
    "c43_type_error_refuted",
    "c43_integer_refuted",
    "c43_merge_refuted"
   ],
   "note": "Safety holds for every text and register file: eval() only ever sees digits, parentheses and operators. The claim that every other failure is ValueError is false in the code: ZeroDivisionError and TypeError escape (1/0, ()+1) and the result can be a bool; stated as _refuted. Python's eval on this alphabet is modelled in PyEval.v; non-integer results (true division cannot occur, negative powers) are EUndefined."
  },
  {
   "property": "C44",
   "status": "partial",
   "theorems": [
    "c44_value",
    "c44_pointer",
    "c44_word",
    "c44_safe",
    "c44_accepts",
    "c44_errors",
    "c44_origin",
    "c44_list",
    "c44_merge_refuted"
   ],
   "note": "Word range, literals, registers, * and lists of words proved for every expression tree. Failures other than ValueError (ZeroDivisionError, TypeError) exist as for C43."
  },
  {
   "property": "C45",
   "status": "proved",
   "theorems": [
    "c45_start",
    "c45_range",
    "c45_empty",
    "c45_fits",
    "c45_bytes"
   ],
   "note": "Rows, gaps, width and readability of every row, for all memories in which a read of n bytes gives n bytes and fails only with PtraceError."
  },
  {
   "property": "C46",
   "status": "partial",
   "theorems": [
    "c46_next",
    "c46_all",
    "c46_single",
    "c46_pid",
    "c46_lost_refuted"
   ],
   "note": "Proved when the current process is traced; if it is not, switch raises ValueError and ends the debugger (c46_lost_refuted)."
  },
  {
   "property": "C47",
   "status": "partial",
   "theorems": [
    "c47_remembered",
    "c47_session_partial",
    "c47_delivered",
    "c47_once",
    "c47_signal_refuted",
    "c47_zero_refuted",
    "c47_interrupt_refuted",
    "c47_trap_refuted"
   ],
   "note": "Invariant over whole lines without 'signal', and delivery exactly once by cont. 'signal N' forgets a signal arriving while it waits, 'signal 0' still sends the pending one, interrupt() loses signals, SIGTRAP is looked up in the wrong process: _refuted. For sessions with 'signal' only: no wrong signal is ever remembered (c47_session_partial)."
  },
  {
   "property": "C48",
   "status": "partial",
   "theorems": [
    "c48_success",
    "c48_failure",
    "c48_exception",
    "c48_line",
    "c48_empty",
    "c48_quit",
    "c48_words",
    "c48_arguments",
    "c48_unknown",
    "c48_replay_refuted",
    "c48_error_refuted",
    "c48_quit_refuted"
   ],
   "note": "Order, stop at the first failure, replay, quit and the meaning of every command word. The last successful line is not replayed once a later line has failed; exceptions other than PtraceError end the debugger (_refuted)."
  },
  {
   "property": "C49",
   "status": "partial",
   "theorems": [
    "c49_last",
    "c49_exit_partial",
    "c49_signal_partial",
    "c49_failure",
    "c49_status",
    "c49_kill_refuted",
    "c49_attach_refuted",
    "c49_fork_refuted"
   ],
   "note": "The status is proved to be the code of the last process that exited with a code, or 128 + the last signal seen when that is later, modulo 256; the cases of the property follow when the end of the program is the last event and was announced by a signal-stop. The code violates the property for SIGKILL, for a --pid that cannot be attached and for a forked child that outlives the program (three refuted theorems)."
  },
  {
   "property": "C50",
   "status": "partial",
   "theorems": [
    "c50_unknown_exact",
    "c50_shown",
    "c50_enter",
    "c50_exit",
    "c50_set",
    "c50_unknown_partial",
    "c50_rejected",
    "c50_report",
    "c50_last_refuted",
    "c50_socketcall_refuted"
   ],
   "note": "Shown only if selected: proved for every run. Rejection of unknown names holds only when another new name follows (c50_last_refuted: the last or only name is never checked); on i386 socket calls are filtered by 'socketcall', not by the displayed name (c50_socketcall_refuted). c50_unknown_exact: exactly when."
  },
  {
   "property": "C51",
   "status": "partial",
   "theorems": [
    "c51_round",
    "c51_fork_refuted",
    "c51_execve_refuted"
   ],
   "note": "Proved for every round of the loop that ends normally. Two cases violate the property: a child that ends before its first stop leaves its parent stopped, and a signal arriving instead of the SIGTRAP of execve() ends strace (refuted theorems)."
  },
  {
   "property": "C52",
   "status": "partial",
   "theorems": [
    "c52_instruction_error",
    "c52_stack_overflow",
    "c52_access",
    "c52_stack_text",
    "c52_instruction_text",
    "c52_names",
    "c52_total_partial",
    "c52_total_refuted",
    "c52_bsd_refuted",
    "c52_dispatch"
   ],
   "note": "Linux: kind, name and text proved for every report; there is a report when the process can be read and the instruction text has operands (c52_total_partial). Refuted: an Intel instruction text without a space (RET as given by distorm3) raises IndexError; without siginfo (BSD) MOVS raises TypeError. A stack pointer equal to the end of the stack mapping counts as inside."
  },
  {
   "property": "C53",
   "status": "partial",
   "theorems": [
    "c53_exact_partial",
    "c53_overlap",
    "c53_sound",
    "c53_unknown_size_partial",
    "c53_ends_partial",
    "c53_several",
    "c53_fault_partial",
    "c53_end_refuted",
    "c53_inside_refuted"
   ],
   "note": "Exact when no mapping is shorter than the access (mappings are whole pages, sizes are 1, 2 or 4), or for an unknown size when no mapping ends at the address. Refuted in general: the byte after the end of a mapping is reported as part of it when the size is unknown; a mapping strictly inside the range is missed."
  },
  {
   "property": "C54",
   "status": "proved",
   "theorems": [
    "c54_closed",
    "c54_once",
    "c54_descriptors",
    "c54_kept",
    "c54_calls",
    "c54_pass_implies",
    "c54_cloexec"
   ],
   "note": ""
  },
  {
   "property": "C55",
   "status": "partial",
   "theorems": [
    "c55_both_partial",
    "c55_failure",
    "c55_stops",
    "c55_success",
    "c55_never_returns",
    "c55_retry_read",
    "c55_retry_waitpid",
    "c55_retry_write",
    "c55_other_error",
    "c55_other_wait",
    "c55_other_write",
    "c55_traceme_refuted",
    "c55_traceme",
    "c55_passed_refuted"
   ],
   "note": "Proved for every creation in which everything up to the execution works (ptrace(PTRACE_TRACEME), passed descriptors open), with any number of interrupted calls. Refuted for failures before that: the exception of PTRACE_TRACEME or of set_inheritable() goes up into the caller's code in the child, nothing is written to the pipe and the parent returns the pid."
  },
  {
   "property": "C56",
   "status": "partial",
   "theorems": [
    "c56_ctypes",
    "c56_cptrace_partial",
    "c56_cptrace_errno_refuted",
    "c56_cptrace_out_of_range",
    "c56_stale_errno_refuted"
   ],
   "note": "Proved for ctypes with glibc. The C extension loses errno (c56_cptrace_errno_refuted) and a libc that does not clear errno makes a peek of -1 fail (c56_stale_errno_refuted)."
  },
  {
   "property": "C57",
   "status": "proved",
   "theorems": [
    "c57_unaligned_refused",
    "c57_aligned_peek",
    "c57_aligned_poke"
   ],
   "note": ""
  },
  {
   "property": "C58",
   "status": "proved",
   "theorems": [
    "c58_absolute",
    "c58_bare",
    "c58_no_path",
    "c58_relative"
   ],
   "note": ""
  },
  {
   "property": "C59",
   "status": "proved",
   "theorems": [
    "c59_prototypes",
    "c59_unique",
    "c59_aliases",
    "c59_base",
    "c59_sockets",
    "c59_numbers",
    "c59_no_table",
    "c59_preformat",
    "c59_socketcall",
    "c59_fd_set",
    "c59_names_nonempty_refuted"
   ],
   "note": "The property as stated is fully proved; c59_names_nonempty_refuted additionally records that seven numbers of the 32-bit PowerPC table have an empty name."
  },
  {
   "property": "C60",
   "status": "proved",
   "theorems": [
    "c60_window",
    "c60_reads",
    "c60_limit",
    "c60_errors",
    "c60_disassemble",
    "c60_one",
    "c60_no_disassembler",
    "c60_lines",
    "c60_breakpoints",
    "c60_plain",
    "c60_caught",
    "c60_line_text",
    "c60_hex_text",
    "c60_messages"
   ],
   "note": "Proved for an arbitrary decoder. At a breakpoint only the replaced bytes (one on x86) are decoded, see c60_breakpoints and walk."
  },
  {
   "property": "C61",
   "status": "partial",
   "theorems": [
    "c61_fd_set_partial",
    "c61_sigset_partial",
    "c61_bytes",
    "c61_big_endian_refuted",
    "c61_fd_set_big_endian",
    "c61_sigset_big_endian",
    "c61_mirror"
   ],
   "note": "Proved on little-endian processors; on big-endian ones the bytes of each word are read in the wrong order (c61_big_endian_refuted). c61_fd_set_big_endian, c61_sigset_big_endian: exactly what is shown there."
  },
  {
   "property": "C62",
   "status": "proved",
   "theorems": [
    "c62_inverse",
    "c62_general",
    "c62_last_wins"
   ],
   "note": ""
  },
  {
   "property": "C63",
   "status": "partial",
   "theorems": [
    "c63_skips",
    "c63_one_sigkill",
    "c63_true_means_dead_partial",
    "c63_attached_refuted"
   ],
   "note": "Proved for processes started by the debugger; for a process it attached to, terminate() returns True although it is alive (refuted)."
  },
  {
   "property": "C64",
   "status": "proved",
   "theorems": [
    "c64_until_exit",
    "c64_resumes"
   ],
   "note": ""
  },
  {
   "property": "C65",
   "status": "partial",
   "theorems": [
    "c65_event_pid",
    "c65_event_pid_big_endian_refuted",
    "c65_event_pid_exact"
   ],
   "note": "Proved on little-endian and 32-bit platforms; on 64-bit big-endian the upper half of the word is returned (refuted). c65_event_pid_exact: exactly when."
  },
  {
   "property": "C66",
   "status": "partial",
   "theorems": [
    "c66_arm_exact",
    "c66_powerpc_frame",
    "c66_pointers_partial",
    "c66_set_instr_pointer",
    "c66_arm_stack_pointer_refuted",
    "c66_python32",
    "c66_unknown_cpu"
   ],
   "note": "Proved except the ARM32 stack pointer, which the code takes from r14 instead of r13 (refuted), the PowerPC frame pointer (not defined by the code) and 32-bit Python on x86_64 (ProcessError). c66_arm_exact, c66_powerpc_frame: what is returned there."
  },
  {
   "property": "C67",
   "status": "proved",
   "theorems": [
    "c67_dump"
   ],
   "note": ""
  },
  {
   "property": "C68",
   "status": "partial",
   "theorems": [
    "c68_intel",
    "c68_powerpc_partial",
    "c68_ppc64_refuted",
    "c68_other_cpus",
    "c68_failed_create_refuted"
   ],
   "note": "Proved on Intel and on PowerPC except 64-bit big-endian (trap word lands at address+4, refuted); on ARM/AArch64/RISC-V the Intel opcode is written; a creation failing half-way leaves trap bytes behind (refuted)."
  },
  {
   "property": "C69",
   "status": "proved",
   "theorems": [
    "c69_string",
    "c69_string_null",
    "c69_string_unreadable",
    "c69_unreadable",
    "c69_null",
    "c69_write",
    "c69_write_other",
    "c69_address"
   ],
   "note": ""
  },
  {
   "property": "C70",
   "status": "partial",
   "theorems": [
    "c70_two_longs_partial",
    "c70_rlimit_refuted",
    "c70_rlimit_exact"
   ],
   "note": "Proved with signed fields; the limits of struct rlimit are unsigned for the kernel and shown signed (c70_rlimit_refuted). c70_rlimit_exact: exactly when."
  },
  {
   "property": "C71",
   "status": "proved",
   "theorems": [
    "c71_info",
    "c71_denied",
    "c71_other_system",
    "c71_boot",
    "c71_states",
    "c71_list_text"
   ],
   "note": ""
  },
  {
   "property": "C72",
   "status": "proved",
   "theorems": [
    "c72_request",
    "c72_missing"
   ],
   "note": ""
  },
  {
   "property": "C73",
   "status": "partial",
   "theorems": [
    "c73_registers_partial",
    "c73_openbsd_refuted",
    "c73_fpregs",
    "c73_fpxregs",
    "c73_iovec",
    "c73_io_desc",
    "c73_siginfo_partial",
    "c73_siginfo_refuted",
    "c73_siginfo_size",
    "c73_unknown_field",
    "c73_bytes"
   ],
   "note": "Proved for every system and CPU with a structure except OpenBSD on amd64, where the code uses the 32-bit structure (refuted). Floating point, iovec and ptrace_io_desc structures proved. siginfo: all fields used by the debugger proved; uid and the 64-bit times are wrong and the structure is too large on 64 bits (refuted)."
  },
  {
   "property": "C74",
   "status": "partial",
   "theorems": [
    "c74_open_flags_partial",
    "c74_open_sync_refuted",
    "c74_open_modes",
    "c74_access_modes",
    "c74_protections",
    "c74_clone_flags_partial",
    "c74_clone_flags_known_partial",
    "c74_clone_stopped_refuted",
    "c74_socketcalls",
    "c74_socketcalls_known",
    "c74_families",
    "c74_socket_types",
    "c74_arguments_partial",
    "c74_options_partial",
    "c74_fcntl_refuted",
    "c74_rlimit_refuted",
    "c74_options_refuted",
    "c74_freebsd_rlimit",
    "c74_freebsd_how_refuted",
    "c74_freebsd_family_refuted",
    "c74_structs_partial",
    "c74_user_desc_refuted",
    "c74_sockaddrs",
    "c74_sockaddrs_bsd_partial",
    "c74_sockaddr_un_refuted"
   ],
   "note": "Proved against the kernel headers up to the listed exceptions, each of which is a wrong entry shown by a refuted theorem: O_SYNC, CLONE_STOPPED, fcntl lock commands, RLIMIT_NLIMITS, socket options without level, FreeBSD SIG_BLOCK and AF_INET6, user_desc, BSD sockaddr_un."
  },
  {
   "property": "C75",
   "status": "proved",
   "theorems": [
    "c75_words",
    "c75_errors",
    "c75_mapping",
    "c75_offset_text"
   ],
   "note": ""
  },
  {
   "property": "C76",
   "status": "partial",
   "theorems": [
    "c76_removed_partial",
    "c76_until",
    "c76_left_refuted"
   ],
   "note": "Proved for every environment once the process has been continued; if cont() itself fails the breakpoint stays installed (c76_left_refuted)."
  },
  {
   "property": "C77",
   "status": "proved",
   "theorems": [
    "c77_quit",
    "c77_no_exception",
    "c77_exit"
   ],
   "note": ""
  },
  {
   "property": "C78",
   "status": "proved",
   "theorems": [
    "c78_interrupt"
   ],
   "note": ""
  },
  {
   "property": "C79",
   "status": "partial",
   "theorems": [
    "c79_numbers_partial",
    "c79_known",
    "c79_nameless",
    "c79_powerpc32_refuted",
    "c79_timerfd_refuted"
   ],
   "note": "Proved for x86_64, i386, PowerPC 32/64 and FreeBSD up to the entries the code gets wrong: x86_64 names timerfd_create 'timerfd', and seven entries of the powerpc32 table have an empty name (refuted theorems)."
  },
  {
   "property": "C80",
   "status": "partial",
   "theorems": [
    "c80_arguments",
    "c80_known",
    "c80_paths",
    "c80_paths_known_partial",
    "c80_mount_refuted"
   ],
   "note": "Argument counts proved for all prototypes; file names proved in both directions except calls on file systems (mount, umount, ...), whose path arguments are not recognised (refuted theorem)."
  },
  {
   "property": "C81",
   "status": "proved",
   "theorems": [
    "c81_quit",
    "c81_signals",
    "c81_clears"
   ],
   "note": "c81_quit lists the ways a run ends; quit() is reached in all of them but exit() and an error in the handler that displays the last call. c81_clears is for states in which no process is marked as ended while still registered (clean)."
  },
  {
   "property": "C82",
   "status": "proved",
   "theorems": [
    "c82_line",
    "c82_display",
    "c82_end",
    "c82_new",
    "c82_execution"
   ],
   "note": ""
  },
  {
   "property": "C83",
   "status": "partial",
   "theorems": [
    "c83_write_partial",
    "c83_read_partial",
    "c83_other",
    "c83_no_instruction",
    "c83_movs",
    "c83_scas_partial",
    "c83_scas_refuted",
    "c83_test_refuted",
    "c83_add_refuted"
   ],
   "note": "The class is characterised by the form of the text of the instruction. Refuted as a statement about what instructions do: TEST is reported as a write, ADD as a read, INC as neither, SCAS is compared with rsi instead of rdi."
  },
  {
   "property": "C84",
   "status": "partial",
   "theorems": [
    "c84_string",
    "c84_size_partial",
    "c84_unknown",
    "c84_size_refuted"
   ],
   "note": "Refuted: the group deref_size includes the space after the name, which is never a key of NAMED_WORD_SIZE, so that the size is never reported except for MOVS/SCAS, where it is right (c84_string, c84_size_partial)."
  },
  {
   "property": "C85",
   "status": "partial",
   "theorems": [
    "c85_values",
    "c85_shown_partial",
    "c85_numbered",
    "c85_numbered_refuted"
   ],
   "note": "Every value is right; every register the expression knows is shown. Refuted for r8-r15, that the expression cannot match."
  },
  {
   "property": "C86",
   "status": "partial",
   "theorems": [
    "c86_division_partial",
    "c86_unknown",
    "c86_error",
    "c86_overflow_refuted"
   ],
   "note": "Reported exactly for DIV/IDIV instructions; the divisor is not examined: the overflow of a division is reported as a division by zero (c86_overflow_refuted)."
  },
  {
   "property": "C87",
   "status": "partial",
   "theorems": [
    "c87_exit_exact",
    "c87_child_partial",
    "c87_exit_code",
    "c87_exit_code_refuted"
   ],
   "note": "si_status is the exit code or the signal, but is decoded as a wait status: right for signals and exit code 0, wrong for every exit code from 1 to 126 (c87_exit_code). c87_exit_exact: what is said for every exit code."
  },
  {
   "property": "C88",
   "status": "proved",
   "theorems": [
    "c88_lines"
   ],
   "note": ""
  },
  {
   "property": "C89",
   "status": "partial",
   "theorems": [
    "c89_null_partial",
    "c89_fails",
    "c89_stops",
    "c89_closed_refuted"
   ],
   "note": "Proved when open(devnull) gives a descriptor other than 1 and 2. Refuted when the standard output was closed beforehand: the null device is opened as descriptor 1 and closed again."
  },
  {
   "property": "C90",
   "status": "partial",
   "theorems": [
    "c90_parent_partial",
    "c90_fork_refuted",
    "c90_fork_exact",
    "c90_pipe"
   ],
   "note": "Proved when the system calls of the parent work (with any number of interruptions). Refuted when fork() fails: both ends of the pipe stay open. c90_fork_exact, c90_pipe: exactly what is left then."
  },
  {
   "property": "C91",
   "status": "proved",
   "theorems": [
    "c91_raised",
    "c91_written",
    "c91_backtrace",
    "c91_trimmed",
    "c91_never_empty",
    "c91_unknown"
   ],
   "note": ""
  },
  {
   "property": "C92",
   "status": "proved",
   "theorems": [
    "c92_seen",
    "c92_level"
   ],
   "note": ""
  },
  {
   "property": "C93",
   "status": "partial",
   "theorems": [
    "c93_error_exact",
    "c93_result_partial",
    "c93_removed",
    "c93_failed",
    "c93_error",
    "c93_error_refuted",
    "c93_foreign_refuted"
   ],
   "note": "Refuted by the code: an exception of the profiled function is replaced by FileNotFoundError, because the file does not exist yet when the finally clause removes it; an unrelated file of that name is removed. Proved when the function returns. c93_error_exact: exactly when."
  },
  {
   "property": "C94",
   "status": "partial",
   "theorems": [
    "c94_all",
    "c94_consecutive",
    "c94_list_partial",
    "c94_list_refuted",
    "c94_list_kept",
    "c94_zero_size",
    "c94_result_codes",
    "c94_list_exact"
   ],
   "note": "Decode itself is proved for every sound decoder. Refuted for callers that keep the instructions: they are views of one array that the next batch overwrites (witness of 101 instructions); proved up to 100 instructions. c94_list_exact: exactly when."
  },
  {
   "property": "C95",
   "status": "partial",
   "theorems": [
    "c95_fails",
    "c95_refuted",
    "c95_errors"
   ],
   "note": "Refuted by the code: __str__ returns bytes, so that str() raises TypeError for every instruction on Python 3."
  },
  {
   "property": "C96",
   "status": "partial",
   "theorems": [
    "c96_cpu_partial",
    "c96_one",
    "c96_windows",
    "c96_system",
    "c96_mixed_refuted",
    "c96_names_refuted",
    "c96_pypy"
   ],
   "note": "Flags and derived constants are proved for every machine and platform name. Refuted: a 32-bit Python on an x86_64 kernel gets CPU_X86_64 with 4-byte words; arm64 is taken for ARM32 and i586 is unknown."
  },
  {
   "property": "C97",
   "status": "partial",
   "theorems": [
    "c97_width_exact",
    "c97_echo",
    "c97_when",
    "c97_twice",
    "c97_pipe",
    "c97_width_partial",
    "c97_width_refuted"
   ],
   "note": "Echo mode proved completely. The width is proved below 32768 columns and refuted above: the unsigned fields are read as signed. c97_width_exact: exactly when."
  },
  {
   "property": "C98",
   "status": "partial",
   "theorems": [
    "c98_local_exact",
    "c98_utc",
    "c98_local",
    "c98_local_partial",
    "c98_local_refuted",
    "c98_never_value",
    "c98_range_refuted",
    "c98_boot",
    "c98_boot_kept",
    "c98_boot_fails",
    "c98_overflow"
   ],
   "note": "UTC proved. The local date uses the offset of 1 January 1970: proved for zones with that offset, refuted for others (summer time). The documented ValueError is never raised (refuted). Values are integers here; C133 has fractions of seconds. c98_local_exact: exactly when."
  },
  {
   "property": "C99",
   "status": "partial",
   "theorems": [
    "c99_limit_partial",
    "c99_steps_partial",
    "c99_last",
    "c99_whole_partial",
    "c99_default",
    "c99_default_refuted"
   ],
   "note": "On Linux, with a limit: proved (fewer stops when an event or error is raised). Refuted without -n: comparing an integer with None raises TypeError before anything is traced."
  },
  {
   "property": "C100",
   "status": "proved",
   "theorems": [
    "c100_new",
    "c100_fork",
    "c100_exec",
    "c100_clone",
    "c100_sysgood",
    "c100_not_linux"
   ],
   "note": ""
  },
  {
   "property": "C101",
   "status": "proved",
   "theorems": [
    "c101_match",
    "c101_match_sound",
    "c101_search",
    "c101_search_first",
    "c101_boundary",
    "c101_end",
    "c101_hex"
   ],
   "note": ""
  },
  {
   "property": "C102",
   "status": "proved",
   "theorems": [
    "c102_strace",
    "c102_strace_start",
    "c102_strace_regex",
    "c102_strace_list",
    "c102_strace_nothing",
    "c102_gdb",
    "c102_gdb_no_program",
    "c102_separator"
   ],
   "note": ""
  },
  {
   "property": "C103",
   "status": "proved",
   "theorems": [
    "c103_long_value",
    "c103_short_value",
    "c103_bundle",
    "c103_abbreviation",
    "c103_ambiguous",
    "c103_help",
    "c103_decimal",
    "c103_hexadecimal",
    "c103_octal",
    "c103_binary",
    "c103_binary_empty",
    "c103_known",
    "c103_unknown",
    "c103_unknown_letter",
    "c103_wrong_number"
   ],
   "note": ""
  },
  {
   "property": "C104",
   "status": "partial",
   "theorems": [
    "c104_follow",
    "c104_written",
    "c104_only",
    "c104_refused",
    "c104_eval",
    "c104_show",
    "c104_found",
    "c104_order",
    "c104_pointers",
    "c104_lines",
    "c104_unreadable_refuted",
    "c104_empty_refuted",
    "c104_semicolon_refuted"
   ],
   "note": "Proved for non-empty terms when every mapping can be read; an occurrence overlapping one already found is covered by it. Refuted: one unreadable mapping ([vvar], ---p) ends the whole search with an error; an empty term never ends; a literal with a semicolon is cut by the command separator. Literals other than one bytes literal are left to an eval argument."
  },
  {
   "property": "C105",
   "status": "partial",
   "theorems": [
    "c105_dump",
    "c105_pid",
    "c105_hexadecimal",
    "c105_not_a_line",
    "c105_python3_refuted",
    "c105_python3_fails",
    "c105_skipped_refuted"
   ],
   "note": "Proved for Python 2 with the file as Linux prints it: the dump is the concatenation of the readable mappings whose line has neither /lib nor /usr. Refuted: on Python 3 (the only supported version) open(name, 'r', 0) raises ValueError and nothing is dumped; mappings such as /home/u/library/data are left out."
  },
  {
   "property": "C106",
   "status": "proved",
   "theorems": [
    "c106_listed",
    "c106_known",
    "c106_commands",
    "c106_once",
    "c106_lines",
    "c106_text",
    "c106_info"
   ],
   "note": ""
  },
  {
   "property": "C107",
   "status": "proved",
   "theorems": [
    "c107_shows",
    "c107_where",
    "c107_where2",
    "c107_where_here",
    "c107_where2_here",
    "c107_proclist",
    "c107_print",
    "c107_breakpoints",
    "c107_signals",
    "c107_set",
    "c107_set_sign",
    "c107_break",
    "c107_break_error",
    "c107_delete",
    "c107_delete_none",
    "c107_step",
    "c107_step_unknown",
    "c107_stepi",
    "c107_until",
    "c107_cont",
    "c107_sys",
    "c107_attach",
    "c107_eof",
    "c107_interrupt",
    "c107_start",
    "c107_switch_next",
    "c107_switch_alone",
    "c107_switch_lost",
    "c107_switch_pid",
    "c107_switch_same",
    "c107_switch_unknown"
   ],
   "note": ""
  },
  {
   "property": "C108",
   "status": "proved",
   "theorems": [
    "c108_options",
    "c108_fork",
    "c108_child",
    "c108_child_error",
    "c108_child_empty",
    "c108_attach",
    "c108_program",
    "c108_program_error",
    "c108_interrupted"
   ],
   "note": ""
  },
  {
   "property": "C109",
   "status": "proved",
   "theorems": [
    "c109_address",
    "c109_error",
    "c109_unknown",
    "c109_words"
   ],
   "note": ""
  },
  {
   "property": "C110",
   "status": "partial",
   "theorems": [
    "c110_plain_partial",
    "c110_swallowed_refuted",
    "c110_rejected_refuted",
    "c110_pid_zero_refuted",
    "c110_pid_zero_fails"
   ],
   "note": "Refuted: the options of the program are taken by the tracer or rejected, although the usage reads '[options] -- program [arg1 arg2 ...]' (optparse accepts options after arguments); --pid 0 is accepted but then treated as no process, and the start fails with IndexError. Proved for programs without options (c110_plain_partial)."
  },
  {
   "property": "C111",
   "status": "proved",
   "theorems": [
    "c111_generated",
    "c111_shipped"
   ],
   "note": ""
  },
  {
   "property": "C112",
   "status": "partial",
   "theorems": [
    "c112_name_refuted",
    "c112_unnamed_refuted",
    "c112_comma_refuted"
   ],
   "note": "Refuted: a name ending in long, int or size_t is taken for a part of the type, an unnamed type other than the known ones is taken for a name, and white space before a comma raises AttributeError. The declarations for which it holds are those of C111."
  },
  {
   "property": "C113",
   "status": "partial",
   "theorems": [
    "c113_no_new",
    "c113_hidden",
    "c113_memory",
    "c113_request",
    "c113_once",
    "c113_destroyed",
    "c113_late_removal",
    "c113_clean_partial",
    "c113_traps_refuted"
   ],
   "note": "Proved for every history: requests, registration, memory, destructors. c113_clean_partial inherits the hypotheses of C16 (accessible, non-overlapping ranges). c113_traps_refuted: an installed breakpoint stays in memory when the process is detached or its object destroyed; the weak reference of the breakpoint is dead by then, so its destructor marks it as removed without writing."
  },
  {
   "property": "C114",
   "status": "partial",
   "theorems": [
    "c114_usage",
    "c114_attach",
    "c114_trace",
    "c114_said",
    "c114_left_refuted"
   ],
   "note": "c114_left_refuted: playWithProcess is not protected by try/finally, so quit() is skipped when it raises (e.g. Ctrl-C while waiting) and the started process is neither killed nor detached. The rest is proved for all command lines and kernels."
  },
  {
   "property": "C115",
   "status": "partial",
   "theorems": [
    "c115_files",
    "c115_names_partial",
    "c115_names_refuted",
    "c115_run",
    "c115_skipped",
    "c115_aborted",
    "c115_success_refuted",
    "c115_verbosity"
   ],
   "note": "c115_names_refuted: list_dir adds the name of a package below the tests directory twice to the module names (sub.sub.test_a). c115_success_refuted: modules that can not be imported are only named on stderr, the exit status is 0. --forever, --coverage and --findleaks: see C130."
  },
  {
   "property": "C116",
   "status": "proved",
   "theorems": [
    "c116_from_header"
   ],
   "note": ""
  },
  {
   "property": "C117",
   "status": "partial",
   "theorems": [
    "c117_struct",
    "c117_signs_partial",
    "c117_sockaddr_signs",
    "c117_int",
    "c117_array_partial",
    "c117_array_refuted",
    "c117_option",
    "c117_option_other",
    "c117_sockaddr",
    "c117_sockaddr_other",
    "c117_bytes",
    "c117_no_array",
    "c117_defaults"
   ],
   "note": "The property fails for arrays of ten or more elements (c117_array_refuted): the regular expression of createText keeps the last digit of the size only; c117_array_partial says exactly which elements are shown for every size. No shipped prototype has such an array. c117_signs_partial leaves out rlimit, whose members are declared with the wrong type (c70_rlimit_refuted)."
  },
  {
   "property": "C118",
   "status": "partial",
   "theorems": [
    "c118_exit",
    "c118_enter",
    "c118_stale_refuted"
   ],
   "note": "c118_stale_refuted: the type int[2] of pipe does not end with an asterisk, so a text made at the entry (strace --enter) stays although the call has written the descriptors."
  },
  {
   "property": "C119",
   "status": "partial",
   "theorems": [
    "c119_goes_on",
    "c119_ends",
    "c119_error_refuted",
    "c119_gcore",
    "c119_gcore_never",
    "c119_unknown",
    "c119_set",
    "c119_set_unable"
   ],
   "note": "Ptrace errors are reported and the session goes on (c119_goes_on). c119_error_refuted: any other exception, such as a division by zero in an expression, ends the session (exactly c119_ends). c119_gcore, c119_gcore_never: gcore always fails, because open(path, 'r', 0) is refused by Python 3, and this ends the session."
  },
  {
   "property": "C120",
   "status": "proved",
   "theorems": [
    "c120_help",
    "c120_texts",
    "c120_understood",
    "c120_listed",
    "c120_once"
   ],
   "note": ""
  },
  {
   "property": "C121",
   "status": "proved",
   "theorems": [
    "c121_log",
    "c121_status",
    "c121_unique",
    "c121_unique_end",
    "c121_runs",
    "c121_attaches"
   ],
   "note": ""
  },
  {
   "property": "C122",
   "status": "proved",
   "theorems": [
    "c122_exit",
    "c122_new",
    "c122_signal",
    "c122_execution",
    "c122_error",
    "c122_gone",
    "c122_gone_unknown",
    "c122_other",
    "c122_keyboard",
    "c122_traced",
    "c122_step_zero",
    "c122_step_error",
    "c122_break_error",
    "c122_instr_error",
    "c122_until_event"
   ],
   "note": ""
  },
  {
   "property": "C123",
   "status": "proved",
   "theorems": [
    "c123_log",
    "c123_unique",
    "c123_runs",
    "c123_attaches"
   ],
   "note": ""
  },
  {
   "property": "C124",
   "status": "partial",
   "theorems": [
    "c124_one_partial",
    "c124_inside_partial",
    "c124_one_refuted",
    "c124_one_i386_refuted",
    "c124_sizes",
    "c124_count_partial",
    "c124_range_partial",
    "c124_range_refuted",
    "c124_where_partial",
    "c124_breakpoint_partial",
    "c124_where_refuted"
   ],
   "note": "The property fails (c124_one_refuted, c124_one_i386_refuted, c124_range_refuted, c124_where_refuted): MAX_INSTR_SIZE is 11 (8 on i386) although instructions have up to 15 bytes; a range cuts the instruction that crosses its end; an instruction under a breakpoint is decoded from the bytes the breakpoint replaced. c124_one_partial and c124_breakpoint_partial are if and only if; the others give sufficient conditions."
  },
  {
   "property": "C125",
   "status": "partial",
   "theorems": [
    "c125_sound_partial",
    "c125_complete_partial",
    "c125_undebugged_partial",
    "c125_inside_refuted",
    "c125_step_refuted",
    "c125_stepi_refuted",
    "c125_deleted",
    "c125_hit",
    "c125_step_is"
   ],
   "note": "Soundness, completeness and the comparison with undebugged runs hold for sessions in which the program never jumps inside a breakpoint, a step reaches only its own breakpoint and a single step does not start on a breakpoint (tame); without these conditions the property fails (c125_inside_refuted, c125_step_refuted, c125_stepi_refuted)."
  },
  {
   "property": "C126",
   "status": "partial",
   "theorems": [
    "c126_path_partial",
    "c126_short",
    "c126_signal",
    "c126_signal_refuted",
    "c126_paths"
   ],
   "note": "Proved for programs without signals (c126_path_partial, c126_short). A signal violates the property, exactly as c126_signal says: it is taken for the death of the program, which is then killed if it was started, or let go without the signal if it was attached (c126_signal_refuted: SIGCHLD)."
  },
  {
   "property": "C127",
   "status": "partial",
   "theorems": [
    "c127_named",
    "c127_decoded",
    "c127_signal",
    "c127_socket_type",
    "c127_integer",
    "c127_word",
    "c127_opaque",
    "c127_unreadable",
    "c127_reached_partial",
    "c127_lseek_refuted",
    "c127_kill_refuted",
    "c127_nonblock_refuted"
   ],
   "note": "Proved: constants by name (c127_named), decoders (c127_decoded), signals (c127_signal), socket types (c127_socket_type), and arguments shown by type (c127_integer, c127_word, c127_opaque, c127_unreadable). Partial because the table for lseek calls its argument 'origin' while the prototype says 'whence', so SEEK_SET/CUR/END are never shown (c127_lseek_refuted); signals of kill/tkill/tgkill are called 'sig' and shown as numbers (c127_kill_refuted); SOCK_NONBLOCK makes a socket type a number (c127_nonblock_refuted)."
  },
  {
   "property": "C128",
   "status": "proved",
   "theorems": [
    "c128_effects",
    "c128_once",
    "c128_looking",
    "c128_line",
    "c128_state",
    "c128_memory",
    "c128_registers"
   ],
   "note": ""
  },
  {
   "property": "C129",
   "status": "partial",
   "theorems": [
    "c129_command",
    "c129_session_partial",
    "c129_undebugged_partial",
    "c129_reading"
   ],
   "note": "c129_command holds for every plain command; the statements about whole sessions have the conditions of C125 (tame). One process; stops other than traps (signals, the end of the process) and commands ended by an exception are not part of a session."
  },
  {
   "property": "C130",
   "status": "partial",
   "theorems": [
    "c130_runs",
    "c130_runners",
    "c130_no_package",
    "c130_no_directory",
    "c130_measured_partial",
    "c130_measured_refuted",
    "c130_leaks",
    "c130_owner_partial",
    "c130_owner_refuted",
    "c130_report"
   ],
   "note": "Refuted: test modules are loaded after the measure is started but before the try, so that a syntax error leaves it unsaved (c130_measured_refuted, proved otherwise: c130_measured_partial); objects made by a failed test are reported with the next successful test or not at all (c130_owner_refuted; c130_leaks says exactly which, c130_owner_partial when all tests succeed)."
  },
  {
   "property": "C131",
   "status": "partial",
   "theorems": [
    "c131_session_partial",
    "c131_undebugged_partial",
    "c131_lost_refuted",
    "c131_late_refuted"
   ],
   "note": "The statements about sessions have the conditions of C125 (the program does not look at the bytes of breakpoints, nor does the delivery of signals) and ask that the user does not step while a signal is pending: c131_lost_refuted and c131_late_refuted show that step, stepi and until do not deliver a pending signal, which is then delivered late or lost. One process; a signal of a single step arises before its instruction."
  },
  {
   "property": "C132",
   "status": "partial",
   "theorems": [
    "c132_end_partial",
    "c132_end_refuted"
   ],
   "note": "Same conditions as C131, and the end of the program does not depend on the bytes of breakpoints: c132_end_refuted shows a program that ends only because the user stepped before a signal was delivered. One process."
  },
  {
   "property": "C133",
   "status": "partial",
   "theorems": [
    "c133_read",
    "c133_succeeds",
    "c133_fails",
    "c133_examples",
    "c133_ptrace",
    "c133_untested_refuted",
    "c133_fake",
    "c133_moment",
    "c133_local_moment",
    "c133_float"
   ],
   "note": "c133_untested_refuted: the script does not run the example of ip_int2str, which is defined in socketcall_struct.py, not in the tested socketcall.py; so the script can succeed although an example is wrong. The sources of the examples are matched as texts and evaluated by the functions of the model; directives, tracebacks and <BLANKLINE> of doctest are left out (not used in /repo)."
  },
  {
   "property": "C134",
   "status": "proved",
   "theorems": [
    "c134_file",
    "c134_stderr",
    "c134_same",
    "c134_not_started",
    "c134_unwritable",
    "c134_level",
    "c134_profiler"
   ],
   "note": ""
  },
  {
   "property": "C135",
   "status": "partial",
   "theorems": [
    "c135_any_order",
    "c135_same_names",
    "c135_flags",
    "c135_exports",
    "c135_disassembler",
    "c135_installed",
    "c135_arm_refuted"
   ],
   "note": "c135_arm_refuted: on Linux with a 32-bit ARM CPU ptrace.binding.cpu knows the registers, but ptrace.syscall, ptrace.debugger, strace.py and gdb.py raise NotImplementedError when they are imported (ptrace/syscall/names.py has no table for it). The modules of the standard library are assumed to be there with the names asked for; values other than flags are not kept; stdout is a terminal; the machine has os.uname()."
  },
  {
   "property": "C136",
   "status": "partial",
   "theorems": [
    "c136_linux",
    "c136_exact",
    "c136_there",
    "c136_openbsd_refuted"
   ],
   "note": "c136_openbsd_refuted: on OpenBSD ptrace.binding.func has ptrace_syscall(), but the constant PTRACE_SYSCALL is not defined there (func.py 56-71), so every call raises NameError. c136_exact: the only other name is THREAD_TRACE_FLAGS in PtraceDebugger._waitpid() outside of Linux (debugger.py 9-13, 134; read for threads only). Conditions on flags are followed; of other statements all parts are taken as read."
  },
  {
   "property": "C137",
   "status": "proved",
   "theorems": [
    "c137_chdir",
    "c137_rename",
    "c137_link",
    "c137_symlink",
    "c137_open",
    "c137_socket",
    "c137_getcwd",
    "c137_basic",
    "c137_exitcode",
    "c137_exitsignal",
    "c137_found",
    "c137_found_text"
   ],
   "note": ""
  },
  {
   "property": "C138",
   "status": "proved",
   "theorems": [
    "c138_session",
    "c138_command",
    "c138_no_prompt",
    "c138_status",
    "c138_test",
    "c138_rstrip",
    "c138_rfind",
    "c138_proc",
    "c138_print",
    "c138_where",
    "c138_dumps",
    "c138_maps",
    "c138_dbginfo"
   ],
   "note": ""
  },
  {
   "property": "C139",
   "status": "partial",
   "theorems": [
    "c139_init",
    "c139_methods",
    "c139_programs",
    "c139_del",
    "c139_documented",
    "c139_instruction_refuted",
    "c139_created"
   ],
   "note": "c139_instruction_refuted: the docstring of Instruction (ptrace/disasm.py 32-42) lists the attributes mnemonic and operands, which no instance has. Everything else of the property is proved. Attributes of other objects than self: C141."
  },
  {
   "property": "C140",
   "status": "partial",
   "theorems": [
    "c140_accepted",
    "c140_values",
    "c140_formed",
    "c140_calls",
    "c140_override_partial",
    "c140_override_refuted"
   ],
   "note": "All calls are proved. c140_override_refuted: SyscallTracer.createChild(program) replaces Application.createChild(arguments, env=None) without the parameter env (strace.py 277); all other replaced methods except constructors accept what the method of the parent accepts (c140_override_partial). Calls of Python's own functions, of other libraries and of functions passed as parameters (log) are not followed; the class of the object of a method call is read from the code by hand."
  },
  {
   "property": "C141",
   "status": "proved",
   "theorems": [
    "c141_peers",
    "c141_classes",
    "c141_function",
    "c141_options",
    "c141_read",
    "c141_distinct",
    "c141_runtests"
   ],
   "note": ""
  },
  {
   "property": "C142",
   "status": "proved",
   "theorems": [
    "c142_exact",
    "c142_double",
    "c142_nearest",
    "c142_overflow",
    "c142_delta",
    "c142_errors"
   ],
   "note": ""
  },
  {
   "property": "C143",
   "status": "partial",
   "theorems": [
    "c143_percent",
    "c143_other",
    "c143_formats",
    "c143_length",
    "c143_tuple",
    "c143_names",
    "c143_env_refuted"
   ],
   "note": "All formats are proved except one: c143_env_refuted (dumpProcessInfo with an environment string without '=', see C22). The values of int conversions are read from the code by hand; the operand of a format with a single conversion that is not written as a tuple is assumed not to be a tuple. Only whether % raises an exception is modelled here, not the text; formats with keys do not occur. Checked against Python 3.11 on 1500 random formats."
  },
  {
   "property": "C144",
   "status": "partial",
   "theorems": [
    "c144_read",
    "c144_maps",
    "c144_maps_agree",
    "c144_boot_left",
    "c144_boot_clean",
    "c144_boot_linux",
    "c144_status",
    "c144_gcore",
    "c144_gcore_left",
    "c144_gcore_python3",
    "c144_closed_refuted",
    "c144_gcore_agree",
    "c144_mem",
    "c144_mem_end",
    "c144_mem_late",
    "c144_detach_refuted",
    "c144_read_results",
    "c144_maps_results",
    "c144_boot_results",
    "c144_status_results",
    "c144_gcore_result"
   ],
   "note": "c144_closed_refuted: getSystemBoot(), dumpProcessInfo() and gcore() have no finally clause; c144_detach_refuted: detach() leaves /proc/pid/mem open (only _notRunning() closes it). Exact conditions: c144_boot_left, c144_status, c144_gcore_left, c144_mem. CPython closes such a file when its object is destroyed, which is not modelled; close() itself works."
  },
  {
   "property": "C145",
   "status": "partial",
   "theorems": [
    "c145_glob",
    "c145_line",
    "c145_other",
    "c145_included",
    "c145_package",
    "c145_packages",
    "c145_parents",
    "c145_sdist",
    "c145_all_refuted",
    "c145_reads",
    "c145_unused",
    "c145_version",
    "c145_argv"
   ],
   "note": "c145_all_refuted: setup.py (8-9) asks for all tracked files, .gitignore and .github/workflows/* are not in it (c145_sdist: everything else is). distutils is modelled from its documentation; setuptools may add further files."
  }
 ]
}