{
 "claims": [
  {
   "property": "C01",
   "status": "proved",
   "theorems": [
    "C01_conversion_reverses_bytes",
    "C01_memory_is_in_needed_order",
    "C01_compile_time_agrees"
   ],
   "note": ""
  },
  {
   "property": "C02",
   "status": "proved",
   "theorems": [
    "C02_round_trip",
    "C02_bijective"
   ],
   "note": ""
  },
  {
   "property": "C03",
   "status": "proved",
   "theorems": [
    "C03_round_trip",
    "C03_portable"
   ],
   "note": ""
  },
  {
   "property": "C04",
   "status": "proved",
   "theorems": [
    "C04_layout",
    "C04_overflow_is_undefined"
   ],
   "note": ""
  },
  {
   "property": "C05",
   "status": "proved",
   "theorems": [
    "C05_partial_value_layout",
    "C05_partial_value_round_trip",
    "C05_full_selection"
   ],
   "note": ""
  },
  {
   "property": "C06",
   "status": "partial",
   "theorems": [
    "C06_bounded_sequence",
    "C06_bounded_sequence_objects_partial",
    "C06_objects_exact_partial",
    "C06_self_insert_refuted",
    "C06_copy",
    "C06_clone",
    "C06_erase_reverse"
   ],
   "note": "Full refinement for trivially copyable element types; for element types with destructors only for histories that erase no inner range (that erasure is UB, see C07_range_erase_refuted). Inserting an element of the container by reference is refuted."
  },
  {
   "property": "C07",
   "status": "partial",
   "theorems": [
    "C07_lifetimes_partial",
    "C07_lifetimes_refuted",
    "C07_overwrite_refuted",
    "C07_range_erase_refuted",
    "C07_lost_partial"
   ],
   "note": "False of the code: erase of inner elements leaks an object, erase of an inner range assigns to destroyed objects. Proved for histories without inner erasures; C07_lost_partial counts exactly, for every history, the objects lost (one for every element erased before another)."
  },
  {
   "property": "C08",
   "status": "partial",
   "theorems": [
    "C08_equality_refuted",
    "C08_equality_partial"
   ],
   "note": "False of the code; the exact decision made by operator== is proved."
  },
  {
   "property": "C09",
   "status": "partial",
   "theorems": [
    "C09_assignment_refuted",
    "C09_assignment_partial",
    "C09_assignment_single",
    "C09_clone_refuted",
    "C09_move_assignment_refuted",
    "C09_copy_constructor",
    "C09_equality",
    "C09_reset",
    "C09_initializer_partial"
   ],
   "note": "Assignment, clone and moving assignment are wrong in the code; copy construction, equality and reset are proved."
  },
  {
   "property": "C10",
   "status": "partial",
   "theorems": [
    "C10_fifo",
    "C10_fifo_objects_partial",
    "C55_clean_refuted"
   ],
   "note": "Complete for trivially copyable element types; for elements with destructors all histories except those cleaning a non-empty container, which is UB in the code (C55_clean_refuted)."
  },
  {
   "property": "C100",
   "status": "partial",
   "theorems": [
    "C100_construct_partial",
    "C100_uninitialised_refuted"
   ],
   "note": "Holds exactly when the integer is at least as wide as the wide integer; otherwise the upper bytes are never initialised."
  },
  {
   "property": "C101",
   "status": "partial",
   "theorems": [
    "C101_convert_unsigned",
    "C101_convert_signed_partial",
    "C101_negative_refuted",
    "C101_round_trip"
   ],
   "note": "Unsigned: no exception. Signed: false for negative wide integers converted to a wider type."
  },
  {
   "property": "C102",
   "status": "partial",
   "theorems": [
    "C102_complement_partial",
    "C102_operand_refuted",
    "C102_twice"
   ],
   "note": "The result is right; the operand is always changed too."
  },
  {
   "property": "C103",
   "status": "partial",
   "theorems": [
    "C103_operators_partial",
    "C103_addition_refuted",
    "C103_increment_refuted",
    "C103_zero_refuted"
   ],
   "note": "The operators are unimplemented: all of them give the left operand back."
  },
  {
   "property": "C104",
   "status": "proved",
   "theorems": [
    "C104_path"
   ],
   "note": "Both branches of the code."
  },
  {
   "property": "C105",
   "status": "partial",
   "theorems": [
    "C105_open_count_partial",
    "C105_unloaded_partial",
    "C105_assign_refuted",
    "C105_self_assign_refuted",
    "C105_memory_refuted"
   ],
   "note": "Exact count of open libraries; false after assignment to an object that has a library, self assignment, exhausted memory."
  },
  {
   "property": "C106",
   "status": "partial",
   "theorems": [
    "C106_memory_partial",
    "C106_no_leak_partial",
    "C106_leak_refuted"
   ],
   "note": "Exact count of blocks; every destroyed object without a library leaks its block."
  },
  {
   "property": "C107",
   "status": "partial",
   "theorems": [
    "C107_assign_partial",
    "C107_moved_refuted",
    "C107_scope_refuted"
   ],
   "note": "Only assignment works; the destructor of every moved-from object is undefined."
  },
  {
   "property": "C108",
   "status": "partial",
   "theorems": [
    "C108_find_partial",
    "C108_unloaded_partial",
    "C108_unloaded_refuted"
   ],
   "note": "Right for loaded libraries; without a library find searches the program on POSIX."
  },
  {
   "property": "C109",
   "status": "proved",
   "theorems": [
    "C109_safe"
   ],
   "note": "For all histories and answers; memory is available and the module keeps to the announced sizes, as the statement says."
  },
  {
   "property": "C11",
   "status": "proved",
   "theorems": [
    "C11_range_push"
   ],
   "note": ""
  },
  {
   "property": "C110",
   "status": "partial",
   "theorems": [
    "C110_results_partial",
    "C110_never_error_refuted",
    "C110_uninitialised_refuted",
    "C110_count_failure_refuted"
   ],
   "note": "Results are right after a successful initialize; no returned Expected ever holds an error, and a library that is not initialised answers with success."
  },
  {
   "property": "C111",
   "status": "partial",
   "theorems": [
    "C111_balance_partial",
    "C111_count_partial",
    "C111_finalize_twice_refuted",
    "C111_never_finalized_refuted"
   ],
   "note": "C111_count_partial: the number of C_Finalize for every history, one for each finalize() after the first initialize() that succeeded and one at the end. True when initialize succeeds once and the caller never finalises; false otherwise."
  },
  {
   "property": "C112",
   "status": "partial",
   "theorems": [
    "C112_order_partial",
    "C112_exact_partial",
    "C112_after_finalize_refuted"
   ],
   "note": "True for every history without a successful finalize; false after one. C112_exact_partial says for every history whether the module was called only while it was initialised: exactly if finalize and the calls about slots were, whenever the library was usable."
  },
  {
   "property": "C113",
   "status": "partial",
   "theorems": [
    "C113_no_slots_partial",
    "C113_always_empty_refuted",
    "C113_working_module_refuted",
    "C113_changed_refuted"
   ],
   "note": "The count is right; the list is always empty, and if slots appear between the two calls the caller gets neither a list nor an error."
  },
  {
   "property": "C114",
   "status": "partial",
   "theorems": [
    "C114_pointer_partial",
    "C114_dangling_refuted",
    "C114_no_elements_refuted"
   ],
   "note": "Every returned pointer is already dangling."
  },
  {
   "property": "C115",
   "status": "partial",
   "theorems": [
    "C115_id_partial",
    "C115_exact_partial",
    "C115_wait_refuted"
   ],
   "note": "C115_exact_partial: the slot each object stands for, and asks about, after every history. True while events occur in the object's own slot only."
  },
  {
   "property": "C116",
   "status": "partial",
   "theorems": [
    "C116_value_partial",
    "C116_self_move_refuted"
   ],
   "note": "True without self moves."
  },
  {
   "property": "C117",
   "status": "partial",
   "theorems": [
    "C117_unlock_refuted",
    "C117_never_unlocked_refuted",
    "C117_lock_partial",
    "C117_default_partial"
   ],
   "note": "False for mutexes of the application's callbacks: unlock calls the lock function. lock is right, and default mutexes always return."
  },
  {
   "property": "C118",
   "status": "partial",
   "theorems": [
    "C118_used_while_alive_partial",
    "C118_exactly_once_partial",
    "C118_assign_refuted",
    "C118_null_refuted"
   ],
   "note": "True without move assignment. A context that is assigned over is never destroyed; an object that was moved from or destroyed by hand passes the null pointer to the application's function."
  },
  {
   "property": "C119",
   "status": "partial",
   "theorems": [
    "C119_missing_partial",
    "C119_missing_use_partial",
    "C119_destructor_refuted",
    "C119_status"
   ],
   "note": "Reported, but without the destroying function the destructor calls the null pointer."
  },
  {
   "property": "C12",
   "status": "partial",
   "theorems": [
    "C12_const_traversal_refuted",
    "C12_const_traversal_objects_refuted",
    "C12_const_traversal_partial",
    "C12_const_exact_partial",
    "C12_move_construction",
    "C12_assignment_refuted"
   ],
   "note": "False of the code once something has been popped: const iteration starts at the first buffer cell instead of the head. Proved for histories without pops since the last clean. C12_const_exact_partial: exactly what const iteration and copies show after any history (trivially copyable elements; for the others see C236). Assignment operators flow off their end."
  },
  {
   "property": "C120",
   "status": "partial",
   "theorems": [
    "C120_arguments_partial",
    "C120_functionList_refuted",
    "C120_initialize_refuted",
    "C120_interfaces_partial",
    "C120_interfaces_refuted",
    "C120_getInterface_refuted"
   ],
   "note": "C_GetInterface never gives an interface; C_GetFunctionList does not return on the null pointer; C_GetInterfaceList ignores the size of the array and does not store the count."
  },
  {
   "property": "C121",
   "status": "partial",
   "theorems": [
    "C121_arrays_partial",
    "C121_ledger_partial",
    "C121_undefined_partial",
    "C121_rvalue_refuted",
    "C121_overflow_refuted"
   ],
   "note": "C121_ledger_partial, C121_undefined_partial: exactly which histories are defined, and what every variable points to after each of those. True in every history in which arrays of several objects are made of a named object and the size in bytes is representable. Refuted otherwise: from a temporary all objects after the first get what the move left; when sizeof * count wraps the block is too small and objects are constructed behind it."
  },
  {
   "property": "C122",
   "status": "partial",
   "theorems": [
    "C122_no_leak_partial",
    "C122_ledger_partial",
    "C122_count_small_refuted",
    "C122_count_large_refuted",
    "C122_null_refuted"
   ],
   "note": "C122_ledger_partial: after every history that is defined, how many blocks are allocated and how many objects were lost. True in every proper history (destroy with the length of the array, objects destroyed only if there is one). Refuted: a smaller count loses objects, a larger one and null pointers are undefined behaviour (a null pointer is what a failed construction returns)."
  },
  {
   "property": "C123",
   "status": "partial",
   "theorems": [
    "C123_clean_partial",
    "C123_overrun_refuted",
    "C123_effect_refuted"
   ],
   "note": "Index and pointer are both stepped: right for objects of at most one byte; for every larger object clean writes behind it and leaves its second byte."
  },
  {
   "property": "C124",
   "status": "partial",
   "theorems": [
    "C124_trivial_partial",
    "C124_value_partial",
    "C124_copy_refuted",
    "C124_never_destroyed_refuted",
    "C124_alignment_partial",
    "C124_alignment_refuted",
    "C124_admitted_partial"
   ],
   "note": "Exact value of every AlignedObject, for all histories of trivially copyable types and histories without copies of others; copies of other types copy the bytes and construct nothing; the destructor of the held object is never called, in any history (the call is commented out); the alignment is right exactly if alignof(T) divides ALIGN, which is not checked."
  },
  {
   "property": "C125",
   "status": "partial",
   "theorems": [
    "C125_exact",
    "C125_once_partial",
    "C125_order",
    "C125_not_elided_refuted"
   ],
   "note": "Exact count: the second functor is called once for every copy and once more; exactly once without copies. Refuted without elision, which C++14 does not guarantee: called when made and when ended."
  },
  {
   "property": "C126",
   "status": "partial",
   "theorems": [
    "C126_result_partial",
    "C126_bool_refuted",
    "C126_uninitialised_refuted",
    "C126_constructor_refuted"
   ],
   "note": "getResult is right; the conversion to bool is inverted, error is never initialised, and the constructor with arguments assigns to a member that is not constructed yet."
  },
  {
   "property": "C127",
   "status": "partial",
   "theorems": [
    "C127_dispatch_partial",
    "C127_no_listen_refuted",
    "C127_full_refuted",
    "C127_full_leak_refuted"
   ],
   "note": "Exact: after any history (system calls other than accept succeed, no close) the notificators called and every pop are those of a small specification of where each event goes. Refuted in general: a server socket on which listen failed goes to a queue nobody initialised (UB); with a full queue the event is gone though the notificator is called, and an accepted descriptor stays open and is never told."
  },
  {
   "property": "C128",
   "status": "partial",
   "theorems": [
    "C128_restored_partial",
    "C128_nonblock_refuted",
    "C128_failed_add_refuted",
    "C128_errors_partial"
   ],
   "note": "Exact effect of add and remove; a socket that was non-blocking or had an owner is not restored, and an add that fails half-way leaves the flags changed."
  },
  {
   "property": "C129",
   "status": "partial",
   "theorems": [
    "C129_no_event_lost_partial",
    "C129_two_sockets_refuted",
    "C129_burst_refuted",
    "C129_stale_refuted"
   ],
   "note": "Nothing is lost on prompt histories (each event delivered before the next, room in the queue). Refuted: two events before the signal is delivered, a burst of two connections, a descriptor that was closed and reused."
  },
  {
   "property": "C13",
   "status": "partial",
   "theorems": [
    "C13_sequence_partial",
    "C13_sequence_objects_partial",
    "C13_ordinary_histories",
    "C13_exact_partial",
    "C13_resize_refuted",
    "C13_resize_fresh_refuted",
    "C13_self_push_refuted",
    "C13_self_insert_refuted"
   ],
   "note": "Refinement proved for all histories except growth from capacity 1 (never terminates, C14), resize to exactly the capacity obtained (no effect) and, for elements with destructors, erasing an inner range (UB). C13_exact_partial gives the end of every history with valid positions: the exact contents and capacity, UB, or a call that never returns."
  },
  {
   "property": "C130",
   "status": "partial",
   "theorems": [
    "C130_alive_partial",
    "C130_mode_partial",
    "C130_broken_refuted",
    "C130_fcntl_refuted",
    "C130_nonblock_refuted"
   ],
   "note": "False exactly if the peer closed and nothing is left to read; so a broken connection is alive, and a non-blocking socket becomes blocking."
  },
  {
   "property": "C131",
   "status": "partial",
   "theorems": [
    "C131_registered_partial",
    "C131_restored_partial",
    "C131_mask_refuted",
    "C131_mask_end_refuted"
   ],
   "note": "True if the mask of the action could be made; after an error there the catcher reports success, the first event terminates the process, and the destructor sets the default action."
  },
  {
   "property": "C132",
   "status": "partial",
   "theorems": [
    "C132_copies_partial",
    "C132_copies_refuted",
    "C132_default_copies_refuted"
   ],
   "note": "All histories of all classes but two. FunctionList3 never copies C_MessageDecryptInit and NistSp800Hyphen108KdfParams never copies prfType; copying a default-constructed object of the 67 classes with an empty constructor reads indeterminate values."
  },
  {
   "property": "C133",
   "status": "partial",
   "theorems": [
    "C133_values_partial",
    "C133_values_refuted"
   ],
   "note": "All classes but NistSp800Hyphen108KdfParams, which has no argument for prfType."
  },
  {
   "property": "C134",
   "status": "partial",
   "theorems": [
    "C134_default_partial",
    "C134_default_refuted"
   ],
   "note": "The classes that copy a value-initialised structure. 67 classes initialise nothing, FunctionList3 all fields but one."
  },
  {
   "property": "C135",
   "status": "partial",
   "theorems": [
    "C135_layout_partial",
    "C135_layout_table",
    "C135_function_list_refuted"
   ],
   "note": "Exact criterion for any structure; all classes but 14. The header packs structures on all platforms: every function pointer of the lists is read 6 bytes too early."
  },
  {
   "property": "C136",
   "status": "partial",
   "theorems": [
    "C136_function_list_partial",
    "C136_function_list_refuted"
   ],
   "note": "Right for the 2.x list, and for the 3.0 list if the result of the function is not copied; else C_MessageDecryptInit is indeterminate."
  },
  {
   "property": "C137",
   "status": "proved",
   "theorems": [
    "C137_routes",
    "C137_published"
   ],
   "note": "For every value of the arguments, by a check of the tables generated from the sources against a table written from the standard."
  },
  {
   "property": "C138",
   "status": "partial",
   "theorems": [
    "C138_success_refuted",
    "C138_verify_refuted",
    "C194_fields_partial",
    "C120_interfaces_partial"
   ],
   "note": "The functions that do something are C194 and C120. False of 87 of the 92 functions: they report success for all arguments and write nothing, C_Verify and C_Login included. What holds is that they are harmless (no memory is written, no pointer is followed)."
  },
  {
   "property": "C139",
   "status": "proved",
   "theorems": [
    "C139_initialize"
   ],
   "note": "In every reachable state in which the library is not usable, for all answers of the module that fit its own counts."
  },
  {
   "property": "C14",
   "status": "partial",
   "theorems": [
    "C14_growth_refuted",
    "C14_growth_reserved_refuted",
    "C14_out_of_memory_refuted",
    "C14_growth_partial"
   ],
   "note": "False of the code for a full vector of capacity 1 and when memory is exhausted; proved for all other reachable vectors."
  },
  {
   "property": "C140",
   "status": "partial",
   "theorems": [
    "C140_start_partial",
    "C140_no_thread_refuted",
    "C140_stop_partial",
    "C140_no_thread_left_partial",
    "C140_no_window_refuted",
    "C140_post_refuted"
   ],
   "note": "Holds for all schedules if the thread, the window and the message can be made. Without the thread the constructor, and without the window or the message the destructor, never returns."
  },
  {
   "property": "C141",
   "status": "partial",
   "theorems": [
    "C141_dispatch_partial",
    "C141_close_refuted",
    "C141_error_refuted",
    "C141_error_case_refuted",
    "C141_notified_refuted",
    "C141_full_refuted",
    "C141_no_window_partial"
   ],
   "note": "Exact account of where every event goes, for all histories. Ends of connections are not asked for, errors and events that find a full queue disappear, and the notificator is called without anything to take."
  },
  {
   "property": "C142",
   "status": "partial",
   "theorems": [
    "C142_not_forgotten_partial",
    "C142_full_refuted"
   ],
   "note": "Holds for all histories in which there is room in the queue when an event is dispatched; else the socket is forgotten for good, however much more arrives."
  },
  {
   "property": "C143",
   "status": "partial",
   "theorems": [
    "C143_writable_refuted",
    "C143_class_partial"
   ],
   "note": "The class is right; but registering a socket puts it in the queue though nothing has arrived."
  },
  {
   "property": "C144",
   "status": "partial",
   "theorems": [
    "C144_silent_partial",
    "C144_failure_partial",
    "C144_nonblock_refuted",
    "C144_stale_refuted"
   ],
   "note": "No new event is reported; events that were waiting are, and the socket stays non-blocking."
  },
  {
   "property": "C145",
   "status": "partial",
   "theorems": [
    "C145_open_partial",
    "C145_none_left_partial",
    "C145_bind_refuted",
    "C145_bind_forever_refuted",
    "C145_startup_partial"
   ],
   "note": "Exactly the sockets of servers that could not be bound are leaked, for all histories."
  },
  {
   "property": "C146",
   "status": "proved",
   "theorems": [
    "C146_whole",
    "C146_client",
    "C146_in_order"
   ],
   "note": "For every content of the queue, every arrival meanwhile and every history."
  },
  {
   "property": "C147",
   "status": "partial",
   "theorems": [
    "C147_size_partial",
    "C147_size_refuted",
    "C147_too_long_refuted",
    "C147_reply_partial"
   ],
   "note": "wait gives the bytes of all datagrams; a datagram that is too long is lost and a reply to it follows a null pointer. Replies to datagrams that fitted go to their senders."
  },
  {
   "property": "C148",
   "status": "partial",
   "theorems": [
    "C148_exact_partial",
    "C148_safe_partial",
    "C148_move_refuted",
    "C148_busy_refuted"
   ],
   "note": "True for all histories without move construction and without deletion of an object whose body works; both of these are undefined behaviour."
  },
  {
   "property": "C149",
   "status": "partial",
   "theorems": [
    "C149_account_partial",
    "C149_none_left_partial",
    "C149_rerun_refuted"
   ],
   "note": "Exact account: a handle is lost exactly when run() is called on an object that holds one, and then it is never closed; none is lost otherwise."
  },
  {
   "property": "C15",
   "status": "partial",
   "theorems": [
    "C15_moved_from_refuted",
    "C15_calls_refuted",
    "C15_moved_from_partial"
   ],
   "note": "False of the code: the source keeps its capacity, so the next push writes through null. Contents transfer and reuse after a larger reserve are proved."
  },
  {
   "property": "C150",
   "status": "proved",
   "theorems": [
    "C150_run",
    "C150_join",
    "C150_working",
    "C150_detach"
   ],
   "note": "For all reachable states."
  },
  {
   "property": "C151",
   "status": "partial",
   "theorems": [
    "C151_again_refuted",
    "C151_detach_partial"
   ],
   "note": "False: it is not tried again whatever the system would answer; only after detach() the object is as new."
  },
  {
   "property": "C152",
   "status": "partial",
   "theorems": [
    "C152_opens_partial",
    "C152_reader_refuted",
    "C152_regular_refuted",
    "C152_status_refuted",
    "C152_unlink_refuted",
    "C152_thread_refuted"
   ],
   "note": "True when the name is free or that of a pipe, nothing fails and nobody else touches the name. Otherwise it may never return, success is reported although both ends failed, and a regular file is taken for a pipe."
  },
  {
   "property": "C153",
   "status": "partial",
   "theorems": [
    "C153_waiting_partial",
    "C153_early_refuted",
    "C153_between_refuted",
    "C153_constructor_refuted"
   ],
   "note": "Exact by the moment at which the other thread comes: too early, the call never returns; between CreateNamedPipe and ConnectNamedPipe, it fails and a handle leaks; later, it works. The constructor never returns."
  },
  {
   "property": "C154",
   "status": "partial",
   "theorems": [
    "C154_ownership_partial",
    "C154_lost_partial",
    "C154_no_leak_partial",
    "C154_default_refuted",
    "C154_assign_refuted"
   ],
   "note": "As on POSIX (C80) for all proper histories without default construction; every use of a default-constructed stream reads a member without a value; assignment to an owner leaks exactly what it owned (C154_lost_partial)."
  },
  {
   "property": "C155",
   "status": "partial",
   "theorems": [
    "C155_ownership_partial",
    "C155_lost_partial",
    "C155_no_leak_partial",
    "C155_status_partial",
    "C155_given_partial",
    "C155_status_refuted",
    "C155_default_refuted",
    "C155_moved_refuted",
    "C155_assign_refuted"
   ],
   "note": "Ownership for all proper histories on both systems, with the exact set of ends lost by assignments to pipes that own (C155_lost_partial). On Windows the status of a new pipe is success exactly if there is none; after a move construction it has no value."
  },
  {
   "property": "C156",
   "status": "partial",
   "theorems": [
    "C156_ownership_partial",
    "C156_open_partial",
    "C156_set_partial",
    "C156_open_sign_refuted",
    "C156_given_back_refuted",
    "C156_not_owner_refuted",
    "C156_other_refuted",
    "C156_default_refuted",
    "C156_stream_refuted",
    "C156_stream_reader_refuted",
    "C156_stream_partial"
   ],
   "note": "True for readers and writers that are made from names, moved, opened and destroyed. Destructors ignore who owns the handle; a NamedPipeStream closes twice; open() reports a failure as a positive number."
  },
  {
   "property": "C157",
   "status": "proved",
   "theorems": [
    "C157_exclusion",
    "C157_lock",
    "C157_waits",
    "C157_try_lock",
    "C157_unlock",
    "C157_spare_unlock"
   ],
   "note": "All interleavings of any number of threads; the mutex of Windows is a semaphore with the value 1."
  },
  {
   "property": "C158",
   "status": "proved",
   "theorems": [
    "C158_one_each",
    "C158_none_left",
    "C158_foreign",
    "C158_move",
    "C158_assign",
    "C158_failed_creation"
   ],
   "note": "All proper histories on Windows, also when the system cannot create a semaphore or reuses handles."
  },
  {
   "property": "C159",
   "status": "partial",
   "theorems": [
    "C159_one_each_partial",
    "C159_none_left_partial",
    "C159_exact_partial",
    "C159_assign_refuted"
   ],
   "note": "Assignment to a Semaphore that was not moved away leaks its handle: the test in operator= is the wrong way round. C159_exact_partial: for any proper history, exactly those handles are left."
  },
  {
   "property": "C16",
   "status": "partial",
   "theorems": [
    "C16_copy_partial",
    "C16_assignment_refuted",
    "C16_assignment_diverges_refuted",
    "C16_assignment_objects_refuted"
   ],
   "note": "Copy construction is proved (histories as in C13); assignment leaves the target empty, or never returns, or is UB."
  },
  {
   "property": "C160",
   "status": "partial",
   "theorems": [
    "C160_sequential_partial",
    "C160_status_refuted"
   ],
   "note": "Holds when no two calls overlap; otherwise the status of another thread's call is seen."
  },
  {
   "property": "C161",
   "status": "partial",
   "theorems": [
    "C161_touched_partial",
    "C161_unlock_refuted"
   ],
   "note": "unlock() writes the member status after it has released the mutex."
  },
  {
   "property": "C162",
   "status": "partial",
   "theorems": [
    "C162_functions_partial",
    "C162_create_refuted",
    "C162_unlock_refuted"
   ],
   "note": "Failures of the system are not reported."
  },
  {
   "property": "C163",
   "status": "proved",
   "theorems": [
    "C163_operators",
    "C163_shifts",
    "C163_determined",
    "C163_conversions"
   ],
   "note": "Histories for shifts from 0 to 24; C163_shifts says exactly which larger shifts are undefined in C++14 (for some bytes)."
  },
  {
   "property": "C164",
   "status": "proved",
   "theorems": [
    "C164_loop",
    "C164_post_increment",
    "C164_order"
   ],
   "note": ""
  },
  {
   "property": "C165",
   "status": "partial",
   "theorems": [
    "C165_move_partial",
    "C165_difference_partial",
    "C165_uint_refuted",
    "C165_backward_refuted"
   ],
   "note": "A negative difference of iterators over unsigned int is a large positive number; a loop from a larger to a smaller int or long overflows."
  },
  {
   "property": "C166",
   "status": "proved",
   "theorems": [
    "C166_tuple",
    "C166_none_left"
   ],
   "note": ""
  },
  {
   "property": "C167",
   "status": "proved",
   "theorems": [
    "C167_elements"
   ],
   "note": ""
  },
  {
   "property": "C168",
   "status": "partial",
   "theorems": [
    "C168_trivial_partial",
    "C168_destroy_refuted",
    "C168_begin_refuted"
   ],
   "note": "Elements with destructors are destroyed twice; begin(list) and end(list) return pointers into a copy that is gone."
  },
  {
   "property": "C169",
   "status": "partial",
   "theorems": [
    "C169_proxy_partial",
    "C169_calls_partial",
    "C169_made_partial",
    "C169_one_worker_partial",
    "C169_cycle_refuted"
   ],
   "note": "Holds as long as no proxy is assigned a proxy of an object that was made after it; otherwise proxies may become proxies of themselves and calls recurse for ever."
  },
  {
   "property": "C17",
   "status": "partial",
   "theorems": [
    "C17_list_sequence_partial",
    "C17_list_sequence_refuted",
    "C17_list_erase_empty_range_refuted",
    "C17_exact_partial"
   ],
   "note": "Proved for every history of the calls in ListSpec.covered, to the walk in both directions, the number of nodes and the destructor. C17_exact_partial says of every history of documented calls how it goes (ListNextSpec.list_story): all calls work; one breaks; one never returns; one returns but leaves a list that cannot be walked. False in general: erase(it) of the last element leaves the tail pointer on the freed node; erase(end(), end()) never returns."
  },
  {
   "property": "C170",
   "status": "partial",
   "theorems": [
    "C170_copy_partial",
    "C170_text_refuted",
    "C170_new_partial",
    "C170_dotted_refuted",
    "C170_accepted_refuted",
    "C170_get_refuted",
    "C170_ipv6_refuted"
   ],
   "note": "Texts are never parsed nor made: every address made of a text is 0.0.0.0, every text of an address is empty."
  },
  {
   "property": "C171",
   "status": "partial",
   "theorems": [
    "C171_names_partial",
    "C171_misspelt_refuted"
   ],
   "note": "One enumerator, Mechanism::E2B_256_HMAC_GENERAL, is misspelt; its value is right."
  },
  {
   "property": "C172",
   "status": "partial",
   "theorems": [
    "C172_complete_partial",
    "C172_left_out_refuted"
   ],
   "note": "CKA_SECONDARY_AUTH and CKA_AUTH_PIN_FLAGS have no enumerator."
  },
  {
   "property": "C173",
   "status": "proved",
   "theorems": [
    "C173_flags"
   ],
   "note": ""
  },
  {
   "property": "C174",
   "status": "proved",
   "theorems": [
    "C174_distinct",
    "C174_conversion"
   ],
   "note": ""
  },
  {
   "property": "C175",
   "status": "proved",
   "theorems": [
    "C175_exit_code",
    "C175_statistic"
   ],
   "note": ""
  },
  {
   "property": "C176",
   "status": "proved",
   "theorems": [
    "C176_compare"
   ],
   "note": ""
  },
  {
   "property": "C177",
   "status": "partial",
   "theorems": [
    "C177_repeat_partial",
    "C177_first_run_refuted",
    "C177_all_refuted",
    "C177_printed_refuted"
   ],
   "note": "A repeated start() gives the result of the first run; the program for all tests always ends with 0; the statistic prints the number of successful tests for the failed ones."
  },
  {
   "property": "C178",
   "status": "proved",
   "theorems": [
    "C178_remove"
   ],
   "note": ""
  },
  {
   "property": "C179",
   "status": "proved",
   "theorems": [
    "C179_predicates"
   ],
   "note": ""
  },
  {
   "property": "C18",
   "status": "partial",
   "theorems": [
    "C18_list_empty_inspect_refuted",
    "C18_list_empty_inspect_partial"
   ],
   "note": "False of the code for new and cleaned lists; proved for lists emptied by popFront or erase(it)."
  },
  {
   "property": "C180",
   "status": "partial",
   "theorems": [
    "C180_pointer_partial",
    "C180_qualified_pointer_refuted"
   ],
   "note": "Pointers that are const or volatile themselves are not recognised."
  },
  {
   "property": "C181",
   "status": "partial",
   "theorems": [
    "C181_remove_all_partial",
    "C181_const_volatile_refuted"
   ],
   "note": "Exact: the bare type unless something on the way is both const and volatile; then it does not compile."
  },
  {
   "property": "C182",
   "status": "partial",
   "theorems": [
    "C182_add_partial",
    "C182_volatile_refuted",
    "C182_references_refuted",
    "C182_void_refuted"
   ],
   "note": "Right for types other than references and void; with those they do not compile. AddVolatile gives a volatile pointer to the type."
  },
  {
   "property": "C183",
   "status": "proved",
   "theorems": [
    "C183_index"
   ],
   "note": ""
  },
  {
   "property": "C184",
   "status": "partial",
   "theorems": [
    "C184_out_of_range_partial",
    "C184_void_refuted"
   ],
   "note": "The index right behind the list gives void."
  },
  {
   "property": "C185",
   "status": "proved",
   "theorems": [
    "C185_move_forward",
    "C185_xvalue_refused"
   ],
   "note": ""
  },
  {
   "property": "C186",
   "status": "partial",
   "theorems": [
    "C186_fixed_width_partial",
    "C186_char_refuted",
    "C186_const_refuted",
    "C186_pointer_refuted",
    "C186_other_refuted",
    "C186_exact_partial"
   ],
   "note": "True of the eight fixed-width types; what the traits give is said for every type. char and const integers are neither signed nor unsigned; the other 64-bit type does not compile."
  },
  {
   "property": "C187",
   "status": "proved",
   "theorems": [
    "C187_limits"
   ],
   "note": ""
  },
  {
   "property": "C188",
   "status": "partial",
   "theorems": [
    "C188_bare_partial",
    "C188_pointer_refuted",
    "C188_missing_refuted",
    "C188_traits_refuted"
   ],
   "note": "Exact for the bare type: pointers to primitive types count as primitive; bool, wchar_t and one 64-bit type do not; the traits do not know qualified types."
  },
  {
   "property": "C189",
   "status": "partial",
   "theorems": [
    "C189_return_partial",
    "C189_others_refuted",
    "C189_exact_partial"
   ],
   "note": "Exactly for unqualified pointers to functions and to member functions."
  },
  {
   "property": "C19",
   "status": "partial",
   "theorems": [
    "C19_list_refill_refuted",
    "C19_list_refill_partial"
   ],
   "note": "False of the code; proved for pushFront after popFront or erase(it)."
  },
  {
   "property": "C190",
   "status": "partial",
   "theorems": [
    "C190_different_partial",
    "C190_same_refuted",
    "C190_exact_partial"
   ],
   "note": "The static_assert is the wrong way round: accepted exactly for different types."
  },
  {
   "property": "C191",
   "status": "proved",
   "theorems": [
    "C191_never_started",
    "C191_no_effect"
   ],
   "note": ""
  },
  {
   "property": "C192",
   "status": "proved",
   "theorems": [
    "C192_answers",
    "C192_any_threads",
    "C192_excludes_nobody"
   ],
   "note": ""
  },
  {
   "property": "C193",
   "status": "partial",
   "theorems": [
    "C193_is_wait_partial",
    "C193_caller_partial",
    "C193_unwait_partial",
    "C193_unwait_refuted",
    "C193_lost_waiter_refuted"
   ],
   "note": "Holds in every interleaving of wait, tryWait, notify and isWait of fewer threads than the counter can count; a call of unwait with or without a waiting thread makes the answer wrong, notify hang, or the waiting thread be forgotten."
  },
  {
   "property": "C194",
   "status": "partial",
   "theorems": [
    "C194_fields_partial",
    "C194_padding_refuted",
    "C194_manufacturer_refuted",
    "C194_version_refuted"
   ],
   "note": "The texts, their sizes and the flags are right; the padding is zeros and the version of Cryptoki is 0.0."
  },
  {
   "property": "C195",
   "status": "partial",
   "theorems": [
    "C195_proper_partial",
    "C195_misuse_refuted"
   ],
   "note": "Right for every application that makes no mistake; no mistake is ever reported."
  },
  {
   "property": "C196",
   "status": "proved",
   "theorems": [
    "C196_in_order",
    "C196_receive_result",
    "C196_send_result",
    "C196_end",
    "C196_empty_range"
   ],
   "note": "What the system does with the bytes (order, no loss before an error) is part of the model of the system. On Windows the last statement is for ranges below 2 GiB; C197 has the larger ones. For an empty range 0 says nothing (C196_empty_range)."
  },
  {
   "property": "C197",
   "status": "partial",
   "theorems": [
    "C197_send_all_partial",
    "C197_send_refuted",
    "C197_windows_refuted",
    "C197_windows_receive_refuted"
   ],
   "note": "The loop sends all, on Windows for ranges below 2 GiB. One call need not send all. On Windows a range of a multiple of 4 GiB is never sent, and receive into one returns 0."
  },
  {
   "property": "C198",
   "status": "partial",
   "theorems": [
    "C198_failure_partial",
    "C198_no_failure",
    "C198_which_error_partial",
    "C198_sigpipe_partial",
    "C198_returned_refuted",
    "C198_stays_refuted",
    "C198_sigpipe_refuted"
   ],
   "note": "A failure returns -1 and its error is in the status. Later calls that succeed do not reset the status, the returned number is not the error, and on POSIX systems sending to a closed end terminates the process by SIGPIPE unless the program ignores it."
  },
  {
   "property": "C199",
   "status": "partial",
   "theorems": [
    "C199_queries_partial",
    "C199_invalid_partial",
    "C199_windows_partial",
    "C199_windows_refuted",
    "C199_error_refuted"
   ],
   "note": "Right for every socket of the library, and for what is not a socket on POSIX systems. On Windows a failed query is taken for a result when errno is 0. Asking for the error clears it."
  },
  {
   "property": "C20",
   "status": "partial",
   "theorems": [
    "C20_string_partial",
    "C20_string_refuted"
   ],
   "note": "The two theorems together say exactly which documented calls keep the string terminated inside its buffer and which go wrong (pushBack(const T &) on a full string writes one past the end; the first character pushed to a new string; inserting a range that does not fit never returns; assigning null)."
  },
  {
   "property": "C200",
   "status": "partial",
   "theorems": [
    "C200_in_order",
    "C200_whole",
    "C200_cut_refuted",
    "C200_stranger_refuted",
    "C200_first_refuted"
   ],
   "note": "Order, whole datagrams and the address sent to are right. A datagram that is too long is cut without being told, datagrams of everyone are received, and before the first send every call waits for ever. POSIX; C146 and C147 have Windows."
  },
  {
   "property": "C201",
   "status": "partial",
   "theorems": [
    "C201_errors_partial",
    "C201_wait_partial",
    "C201_stays_refuted"
   ],
   "note": "Every error is returned and kept in the status; calls that succeed do not reset the status."
  },
  {
   "property": "C202",
   "status": "partial",
   "theorems": [
    "C202_backward_partial",
    "C202_values_partial",
    "C202_forth_partial",
    "C202_hybrid_partial",
    "C202_strict_refuted",
    "C202_hybrid_empty_refuted"
   ],
   "note": "Proved for flat memory. By the rules of C++ rend() is undefined for every container; on a HybridVector that holds nothing the loop reads through an unset iterator. Const String and const HybridVector have no reverse iterators that compile."
  },
  {
   "property": "C203",
   "status": "partial",
   "theorems": [
    "C203_string_partial",
    "C203_list_partial",
    "C203_hybrid_partial",
    "C06_clone",
    "C203_vector_refuted",
    "C203_list_empty_refuted",
    "C09_clone_refuted"
   ],
   "note": "Proved for String, non-empty List, HybridVector and StaticVector. Vector::clone never returns its copy, an untouched List cannot be cloned, StaticArray::clone copies every element into the first cell."
  },
  {
   "property": "C204",
   "status": "partial",
   "theorems": [
    "C204_from_array_partial",
    "C204_from_vector_partial",
    "C204_assignment_refuted"
   ],
   "note": "The constructors are right; the four assignment operators end without a return statement."
  },
  {
   "property": "C205",
   "status": "partial",
   "theorems": [
    "C205_always_empty_partial",
    "C205_range_refuted",
    "C205_capacity_refuted",
    "C205_assignment_refuted"
   ],
   "note": "The constructors reserve memory and store nothing, so that a CircularVector is always empty; a new one claims room for 2^64 - 1 elements; assignment is undefined."
  },
  {
   "property": "C206",
   "status": "partial",
   "theorems": [
    "C206_answers_partial",
    "C206_separate_partial",
    "C206_overlap_refuted"
   ],
   "note": "True is answered only after a successful WSAStartup, nothing is given back before the program ends, and without overlapping calls starts and ends balance. Overlapping first calls each start the library and only one start is given back."
  },
  {
   "property": "C207",
   "status": "proved",
   "theorems": [
    "C207_reserved"
   ],
   "note": ""
  },
  {
   "property": "C208",
   "status": "partial",
   "theorems": [
    "C208_amortised_partial",
    "C208_one_refuted"
   ],
   "note": "Linear number of moved elements, logarithmic number of requests and bounded unused capacity for every capacity but 1; a vector of capacity 1 never grows."
  },
  {
   "property": "C209",
   "status": "proved",
   "theorems": [
    "C209_arrive",
    "C209_progress",
    "C209_single_receive"
   ],
   "note": "C209_single_receive shows why the loop around receive is needed: one call may store a part of a value, and the deserialiser then reads behind it."
  },
  {
   "property": "C21",
   "status": "partial",
   "theorems": [
    "C20_string_partial",
    "C20_string_refuted",
    "C21_copy_partial",
    "C21_move_partial",
    "C21_assignment_refuted",
    "C21_self_assignment_refuted"
   ],
   "note": "Edits proved for every history in which no call goes wrong; copy and move proved; operator=(const BasicString &) never gives the source's characters unless the source is empty."
  },
  {
   "property": "C210",
   "status": "proved",
   "theorems": [
    "C210_arrive",
    "C210_at_once"
   ],
   "note": ""
  },
  {
   "property": "C211",
   "status": "partial",
   "theorems": [
    "C211_arrive_partial",
    "C211_small_range_refuted",
    "C211_stranger_refuted"
   ],
   "note": "True if the ranges are as large as the messages and only the server sends. A longer message is cut without notice and the deserialiser reads behind it; a datagram of anybody is taken for one of the server."
  },
  {
   "property": "C212",
   "status": "proved",
   "theorems": [
    "C212_order",
    "C212_independent",
    "C212_bytes",
    "C212_values",
    "C212_errors",
    "C212_not_listening"
   ],
   "note": "The server object lives during the whole history; what becomes of connections that wait when it is destroyed is not modelled."
  },
  {
   "property": "C213",
   "status": "partial",
   "theorems": [
    "C213_vector_partial",
    "C213_same_answers",
    "C213_retry_partial",
    "C213_reserve_partial",
    "C213_vector_refuted",
    "C213_construct_refuted",
    "C213_string_refuted",
    "C213_string_new_refuted",
    "C213_list_refuted",
    "C213_unique_partial",
    "C213_shared_refuted"
   ],
   "note": "Vector loses nothing by refusals, for all answers of the system, but only reserve returns: the other calls call themselves until there is memory (resize is left out of the histories, C13). UniquePointer is right. Copies of a Vector, String, List and SharedPointer follow the null pointer, and a String that should grow loses its text."
  },
  {
   "property": "C214",
   "status": "partial",
   "theorems": [
    "C214_emplace_partial",
    "C214_pointer_partial",
    "C214_vector_emplace_partial",
    "C214_named_refuted",
    "C214_others_partial",
    "C214_hybrid_emplace_refuted"
   ],
   "note": "For every list of arguments of any object types: StaticVector, Vector, List, SharedPointer, AlignedObject and InitializerList; UniquePointer and ObjectAllocator except for a temporary of the type itself (C215). HybridVector and CircularArray use forward without the type and so move from every object that is not const, refuted for every type, value and state."
  },
  {
   "property": "C215",
   "status": "partial",
   "theorems": [
    "C215_adding_partial",
    "C215_array_move_partial",
    "C215_insert_named_partial",
    "C215_list_refuted",
    "C215_list_insert_refuted",
    "C215_construct_refuted",
    "C215_no_compile_refuted",
    "C215_pair_overloads",
    "C215_any_overloads",
    "C215_object_partial",
    "C215_object_refuted",
    "C215_range_partial",
    "C215_range_refuted"
   ],
   "note": "Proved for StaticVector, Vector::pushBack, HybridVector::pushBack, CircularArray, Optional and Expected. List, ObjectAllocator::construct and UniquePointer copy temporaries, an Object moves from named objects, CircularArray::pushBack of a temporary range from the elements of the container the range is of; Vector::insert and HybridVector::insert of a temporary and the moves of StaticArray do not compile."
  },
  {
   "property": "C216",
   "status": "partial",
   "theorems": [
    "C216_shared_partial",
    "C216_shared_refuted",
    "C216_unique_partial",
    "C216_unique_refuted",
    "C216_others_partial",
    "C216_others_refuted"
   ],
   "note": "By the rules of overload resolution, for every class and state. The constructor for any arguments takes every named pointer that is not const: SharedPointer b(a) does not compile or makes a new object of true, and a UniquePointer to a type that can be made of a bool can be copied. AlignedObject and InitializerList can be copied only if const; a Variant is moved from."
  },
  {
   "property": "C217",
   "status": "partial",
   "theorems": [
    "C217_static_vector_partial",
    "C217_static_vector_refuted",
    "C217_vector_partial",
    "C217_vector_refuted",
    "C217_string_partial",
    "C217_string_refuted",
    "C217_list_partial",
    "C217_circular_partial",
    "C217_circular_refuted",
    "C217_emplace_partial",
    "C217_emplace_refuted",
    "C217_emplace_same",
    "C217_hybrid_exact_partial",
    "C217_hybrid_refuted"
   ],
   "note": "List: in every state and position in which elements from outside can be added. StaticVector, Vector and String: exactly which positions and capacities are right; the others insert another element or read memory that was given back, and s = s.data() empties s. CircularArray: a temporary range of its own elements is moved from. Vector::emplace the same, but at the element's own position an object is made from itself. HybridVector: exactly when it is defined and what is inserted."
  },
  {
   "property": "C218",
   "status": "partial",
   "theorems": [
    "C218_list_partial",
    "C218_list_move_partial",
    "C218_static_vector",
    "C218_vector",
    "C218_circular"
   ],
   "note": "StaticVector, Vector (inner ranges of elements are not erased, resize asks for less than the capacity) and CircularArray as stated; List for all histories of calls that do not go wrong themselves (C17, C19 say which do), with the position of the element followed through every call and the reference dangling exactly when the element was removed."
  },
  {
   "property": "C219",
   "status": "partial",
   "theorems": [
    "C219_writer_partial",
    "C219_flush_refuted",
    "C219_stuck_refuted"
   ],
   "note": "The counts and the order are right for every history; a flush answers that it was successful and writes nothing, so the promise holds exactly for the histories whose flushes find nothing that waits, and a writer that has been filled stays full for ever."
  },
  {
   "property": "C22",
   "status": "partial",
   "theorems": [
    "C22_to_string_partial",
    "C22_decimal_unique",
    "C22_minimum_refuted",
    "C23_one_digit_refuted"
   ],
   "note": "Proved for every value of every integer type except the smallest value of a signed type and 0 .. 9; both exceptions are refuted."
  },
  {
   "property": "C220",
   "status": "partial",
   "theorems": [
    "C220_direct_partial",
    "C220_allocated_partial",
    "C220_copy_refuted",
    "C220_destroyed_copy_refuted",
    "C220_default_refuted",
    "C220_assign_refuted",
    "C220_convert_refuted"
   ],
   "note": "Values kept as a member: every history without the assignment of a plain value. Values kept behind a pointer: every history without copies. A copy behind a pointer shares the value with the original in every state; when it is destroyed the original has lost its value; the assignment of a plain value flows off its end; a value made from one of another number type holds 1."
  },
  {
   "property": "C221",
   "status": "partial",
   "theorems": [
    "C221_table_partial",
    "C221_payload_refuted"
   ],
   "note": "Markers, closing markers and distinctness for all types; whether data follows for all but True and False, for which the table is wrong."
  },
  {
   "property": "C222",
   "status": "proved",
   "theorems": [
    "C222_own_callback",
    "C222_plain"
   ],
   "note": ""
  },
  {
   "property": "C223",
   "status": "partial",
   "theorems": [
    "C223_semaphore_partial",
    "C223_mutex_spin_partial",
    "C223_failed_partial",
    "C223_value",
    "C223_silent_refuted",
    "C223_wrong_error_refuted",
    "C223_attributes_refuted",
    "C223_stays_refuted"
   ],
   "note": "Right for Semaphore. The functions for Mutex and Spin look for the error in errno, where the system does not put it: whether the last call failed is told exactly if errno happens not to be 0, and the error is that of another call; with errno 0 every failure is reported as success. A successful tryLock() or tryWait() does not change the status."
  },
  {
   "property": "C224",
   "status": "partial",
   "theorems": [
    "C224_condition_partial",
    "C224_one_waiter_partial",
    "C224_wakes_partial",
    "C224_already_true_refuted",
    "C224_spins_refuted"
   ],
   "note": "It returns exactly when its functor has given true, in every schedule; with one waiting and one notifying thread it returns after a notification. But it waits before it asks: a condition that is already true, however often it was announced, is not noticed, and with a functor that gives false one notification can make it call the functor any number of times while notify() does not return."
  },
  {
   "property": "C225",
   "status": "partial",
   "theorems": [
    "C225_idle_partial",
    "C225_one_waiter_partial",
    "C225_never_returns_refuted",
    "C225_used_after_refuted",
    "C225_other_thread_refuted"
   ],
   "note": "Right when no thread or one thread waits, in every fair schedule. With two waiting threads the destructor may never return, or return while a thread is still inside wait() and then uses the destroyed object; with a Mutex or a Spin only the thread that constructed it may destroy it."
  },
  {
   "property": "C226",
   "status": "partial",
   "theorems": [
    "C226_same_class_partial",
    "C226_exact_partial",
    "C226_exact_list_partial",
    "C226_mixed_refuted",
    "C226_const_refuted",
    "C226_loop_partial",
    "C226_loop_refuted"
   ],
   "note": "Right exactly for two iterators of one class with a left operand that is not const, and for > on arrays, vectors and strings. In every other case the iterators are converted to bool: an iterator and a const iterator, or two iterators the left of which is const, are always equal, and a loop from begin() to cend() visits nothing."
  },
  {
   "property": "C227",
   "status": "partial",
   "theorems": [
    "C227_unique_partial",
    "C227_unique_refuted",
    "C227_shared_partial",
    "C227_shared_refuted",
    "C227_shared_moved_refuted",
    "C227_optional_partial",
    "C227_optional_refuted",
    "C227_variant_partial",
    "C227_variant_refuted",
    "C227_ipv4_partial",
    "C227_ipv4_refuted"
   ],
   "note": "Only Variant has the operators, and only for a left operand that is not const. All other comparisons compare the conversions to bool: two pointers to different objects, two Optionals with different values, two different addresses are equal, and an Optional is equal to 1 exactly when it holds something; a SharedPointer that was moved from cannot be compared."
  },
  {
   "property": "C228",
   "status": "partial",
   "theorems": [
    "C228_make_partial",
    "C228_make_const_partial",
    "C228_make_const_refuted",
    "C228_alias_partial",
    "C228_const_partial",
    "C228_empty_partial",
    "C228_gone_refuted",
    "C228_get_partial",
    "C228_temporary_refuted"
   ],
   "note": "makeReferenceWrapper is right for objects and pointers. makeConstReferenceWrapper of a named pointer to an object that is not const refers to the pointer instead of the object; operator bool does not tell that the object is gone, and getConstReference of a temporary refers to nothing."
  },
  {
   "property": "C229",
   "status": "proved",
   "theorems": [
    "C229_linearizable",
    "C229_no_race"
   ],
   "note": ""
  },
  {
   "property": "C23",
   "status": "partial",
   "theorems": [
    "C22_to_string_partial",
    "C23_one_digit_refuted",
    "C22_minimum_refuted"
   ],
   "note": "No access outside the buffer for every value except 0 .. 9 (terminator written one past the end) and the smallest int and long (overflow)."
  },
  {
   "property": "C230",
   "status": "partial",
   "theorems": [
    "C230_posix_partial",
    "C230_windows_partial",
    "C230_same_partial",
    "C230_loop_partial",
    "C230_size_refuted",
    "C230_loop_refuted",
    "C230_pipe_refuted"
   ],
   "note": "Right on Posix, and on Windows for ranges whose size is no multiple of 2^32 and handles that are no pipes without writers. On Windows the size is converted to DWORD: a range of 2^32 bytes (or a multiple) transfers nothing and reports 0, and a loop that writes it never ends; the end of a pipe is reported as a failure."
  },
  {
   "property": "C231",
   "status": "partial",
   "theorems": [
    "C231_order_partial",
    "C231_loops_partial",
    "C231_unset_refuted",
    "C231_moved_refuted"
   ],
   "note": "Right for iterators taken while the elements are in one place. A container that holds nothing reads a null pointer; iterators taken before and after a change of storage are in no order."
  },
  {
   "property": "C232",
   "status": "partial",
   "theorems": [
    "C232_patient_partial",
    "C232_each_partial",
    "C232_signal_partial",
    "C232_null_refuted",
    "C232_destroyed_refuted",
    "C232_replaced_refuted"
   ],
   "note": "Right if the handler runs on the only thread, and for all interleavings if the application takes notificators back only while nobody notifies; otherwise a null pointer or a destroyed notificator is called."
  },
  {
   "property": "C233",
   "status": "partial",
   "theorems": [
    "C233_append_partial",
    "C233_dropped_refuted",
    "C233_full_refuted",
    "C233_remove_partial",
    "C233_remove_range_refuted"
   ],
   "note": "Proved for characters with room in the buffer, C strings of const characters and iterators. Refuted for every other operand: a T *, a buffer T[], a String, a Range or an integer is silently dropped - the template for any type and three unfinished overloads are chosen - and -= of a range removes nothing; a character without room is written outside the buffer."
  },
  {
   "property": "C234",
   "status": "partial",
   "theorems": [
    "C234_program_partial",
    "C234_assign_empty_refuted",
    "C234_moved_from_refuted",
    "C234_copy_of_one_refuted"
   ],
   "note": "Proved for every program of copies, moves, assignments and calls on any number of objects, in which the calls are on sound objects and an object that holds nothing is not assigned to one that holds something. Refuted: assigning from an empty HybridVector (never filled, or emptied by erase) leaves the target as it was; what elements in dynamic memory were moved from writes the next element through null; a copy of one element in dynamic memory recurses for ever on pushBack."
  },
  {
   "property": "C235",
   "status": "partial",
   "theorems": [
    "C235_lost_partial",
    "C235_erase_refuted",
    "C235_range_erase_refuted"
   ],
   "note": "Exact: a history loses one object for every element erased before another and for every element emplaced before another in dynamic memory, and none else; no change of storage loses any. Refuted by these calls, after every history; erasing a range before another element assigns to destroyed objects."
  },
  {
   "property": "C236",
   "status": "partial",
   "theorems": [
    "C236_program_partial",
    "C236_destroy_refuted",
    "C236_copy_refuted",
    "C236_rotated_refuted"
   ],
   "note": "Exact: a program is defined if and only if no container that is not empty is cleaned, no container whose head has left the first cell is copied (unless empty), none is assigned, and none made from one that was not empty is ever destroyed; then every container shows its queue and nothing is lost. Refuted by copying or moving one element and destroying the result, even emptied, and by copying after a pop."
  },
  {
   "property": "C237",
   "status": "partial",
   "theorems": [
    "C237_exact_partial",
    "C237_all_closed_partial",
    "C237_assign_over_refuted",
    "C237_bind_refuted"
   ],
   "note": "Exact: in every program the open sockets are those of the objects and the lost ones, each once; lost are the socket of an object that is assigned to (also to itself) and that of a server that cannot be bound. Without these two nothing is lost, and when all objects are destroyed nothing is open. Refuted by assigning to an owner, and by a failed bind. The closing of handle 0 by objects that were moved from fails without effect."
  },
  {
   "property": "C238",
   "status": "partial",
   "theorems": [
    "C238_elements_partial",
    "C238_part_partial",
    "C238_too_many_partial",
    "C238_bytes_partial",
    "C238_makers_partial",
    "C238_reverse_refuted"
   ],
   "note": "Ranges of elements and of bytes as stated, for containers whose iterators are pointers to their elements; exactly when a pointer and a number are no range, and what a loop does whose end is before its begin. Refuted for reverse ranges: makeReverseRange() and makeConstReverseRange() return a range of other iterators and compile for no container whose reverse iterators are a type of their own."
  },
  {
   "property": "C239",
   "status": "partial",
   "theorems": [
    "C239_reference_partial",
    "C239_leaves_partial",
    "C239_erase_refuted"
   ],
   "note": "True as long as the elements stay where they are: no more of them than capacity() (a range inserted into the fixed part must leave a place free) and, in dynamic memory, no erase that leaves fewer than the fixed part has room for. Refuted by such an erase: removing the last element with erase() moves all others, while popBack() does not. C239_leaves_partial: exactly when pushBack() on the fixed part invalidates every reference. Inner ranges are not erased (C235)."
  },
  {
   "property": "C24",
   "status": "proved",
   "theorems": [
    "C24_unique_owner",
    "C24_no_leak"
   ],
   "note": "Any number of UniquePointers, every history of construction, makeEmpty, move construction, move assignment (also onto itself), clean and destruction."
  },
  {
   "property": "C25",
   "status": "partial",
   "theorems": [
    "C25_exact_partial",
    "C25_shared_alive_partial",
    "C25_last_release_refuted",
    "C25_early_destruction_refuted",
    "C25_clean_refuted",
    "C25_empty_refuted"
   ],
   "note": "The counter starts at 0: the object is destroyed when the owners fall from two to one, and never when the last owner goes. C25_exact_partial: for all histories without default construction and without clean() of an owner, exactly which calls are undefined and which objects are destroyed when. Proved safe for all histories in which no release leaves exactly one owner; all other releases are refuted."
  },
  {
   "property": "C26",
   "status": "partial",
   "theorems": [
    "C27_exact_partial",
    "C26_variant_partial",
    "C60_copy_named_refuted",
    "C28_assign_unset_refuted"
   ],
   "note": "Proved for any number of variants and every history except copies of named non-const variants (which change the source) and assignment from an unset variant (which does nothing)."
  },
  {
   "property": "C27",
   "status": "partial",
   "theorems": [
    "C27_exact_partial",
    "C27_lifetimes_partial",
    "C27_copy_of_unset_refuted"
   ],
   "note": "C27_exact_partial: what every program does, and exactly which programs are undefined (those that copy or move a copy of an unset variant). Objects constructed = destroyed + held, for every program that does not copy a named non-const unset variant; that copy has index INT64_MIN and copying it again overflows."
  },
  {
   "property": "C28",
   "status": "partial",
   "theorems": [
    "C26_variant_partial",
    "C28_assign_unset_refuted",
    "C28_equality_partial",
    "C28_equality_refuted"
   ],
   "note": "Assignment from an unset variant is ignored; equality is correct for set variants, not reflexive for unset ones."
  },
  {
   "property": "C29",
   "status": "partial",
   "theorems": [
    "C29_index_access_refuted",
    "C29_index_access_partial",
    "C29_exact_partial"
   ],
   "note": "get<INDEX>() gives a non-null pointer for every alternative in every state; the const version only checks that something is stored."
  },
  {
   "property": "C30",
   "status": "partial",
   "theorems": [
    "C30_exact_partial",
    "C30_optional_partial",
    "C30_assign_empty_refuted",
    "C30_init_refuted"
   ],
   "note": "C30_exact_partial: what every optional holds after any program. The property holds for histories without assigning an empty optional to a filled one and without init(); both are refuted."
  },
  {
   "property": "C31",
   "status": "partial",
   "theorems": [
    "C31_lifetimes_partial",
    "C31_init_refuted",
    "C31_lost_partial"
   ],
   "note": "Exact: every program that uses only optionals that exist loses one object for every call of init(), and none else; without init() nothing is lost."
  },
  {
   "property": "C32",
   "status": "partial",
   "theorems": [
    "C32_exact_partial",
    "C32_no_ghost_partial",
    "C32_balanced_partial",
    "C32_lifetimes_partial",
    "C32_taken_leak_refuted",
    "C32_copy_assign_refuted"
   ],
   "note": "For every program: which calls are undefined and the exact balance of objects (C32_exact_partial). No double destruction and exact count for histories without copy assignment onto a set Expected and without self-move; values taken by a move or a consuming handler are never destroyed, and copy assignment onto a set Expected destroys twice."
  },
  {
   "property": "C33",
   "status": "partial",
   "theorems": [
    "C33_handlers_partial",
    "C33_chain_partial",
    "C33_templates_partial",
    "C33_templates_again_refuted",
    "C32_exact_partial"
   ],
   "note": "C32_exact_partial gives the handler calls of every program. Holds for flame_ide::Expected over covered histories; in templates::Expected the matching handler is called but a consuming call does not consume, so it is called again."
  },
  {
   "property": "C34",
   "status": "partial",
   "theorems": [
    "C34_exact_partial",
    "C34_lifetimes_partial",
    "C34_lifetimes_small_partial",
    "C35_move_refuted"
   ],
   "note": "Exact for every program (C34_exact_partial): undefined if and only if an Object is destroyed or overwritten whose value lies at a position it does not look at, otherwise every value is destroyed once. Holds for every program that stores no over-aligned type, and for moves between equally placed Objects; otherwise the moved-to Object destroys at a wrong address."
  },
  {
   "property": "C35",
   "status": "partial",
   "theorems": [
    "C34_exact_partial",
    "C34_lifetimes_partial",
    "C34_lifetimes_small_partial",
    "C35_move_refuted"
   ],
   "note": "get<T>() of every Object gives its value as long as no over-aligned value is moved to a differently placed Object; then it is refuted."
  },
  {
   "property": "C36",
   "status": "partial",
   "theorems": [
    "C36_range_partial",
    "C36_exact_partial",
    "C36_prefix_refuted",
    "C36_bytes"
   ],
   "note": "Bytes in full; ranges of equal length; a proper prefix counts as equal. C36_exact_partial: for any two ranges the answer is yes exactly when one begins like the other."
  },
  {
   "property": "C37",
   "status": "proved",
   "theorems": [
    "C37_copy_bytes",
    "C37_copy_array",
    "C37_copy_iterators",
    "C37_count_iterations"
   ],
   "note": "Destination must not begin inside the source."
  },
  {
   "property": "C38",
   "status": "proved",
   "theorems": [
    "C38_aligned_pointer",
    "C38_aligned_pointer_general"
   ],
   "note": "All 48-bit canonical addresses; the general theorem covers all 64-bit numbers except the last block of the lower half, where the signed sum overflows."
  },
  {
   "property": "C39",
   "status": "partial",
   "theorems": [
    "C39_reverse_order_refuted",
    "C39_reverse_order_partial",
    "C39_reverse_steps",
    "C39_reverse_difference_refuted"
   ],
   "note": "The strict comparisons and the steps are proved; the difference of two reverse iterators has the wrong sign in the code."
  },
  {
   "property": "C40",
   "status": "partial",
   "theorems": [
    "C40_circular_steps",
    "C40_circular_inverse",
    "C40_circular_index_refuted",
    "C40_circular_index_overrun_refuted",
    "C40_circular_index_partial",
    "C40_circular_negative_refuted",
    "C40_circular_negative_partial",
    "C40_circular_postfix_refuted",
    "C40_circular_difference"
   ],
   "note": "Single steps and non-negative offsets are proved; subscript, negative offsets and postfix steps are wrong in the code."
  },
  {
   "property": "C41",
   "status": "partial",
   "theorems": [
    "C41_compare_partial",
    "C41_compare_mixed_partial",
    "C41_ge_le_refuted",
    "C41_ge_le_partial",
    "C41_eq_mixed_refuted"
   ],
   "note": "==, !=, <, > are right when the values fit; >= and <= exclude equality; mixed == compares truncated values."
  },
  {
   "property": "C42",
   "status": "partial",
   "theorems": [
    "C42_bit_constants_refuted",
    "C42_bit_constants_partial",
    "C42_minimal_type"
   ],
   "note": "BIT64_61 and BIT64_63 are exchanged in the code; all other constants are proved right."
  },
  {
   "property": "C43",
   "status": "partial",
   "theorems": [
    "C43_round_trip_partial",
    "C43_round_trip_refuted"
   ],
   "note": "Holds exactly for the addresses without an octet in 100..109 or 200..209; with such an octet the text is another valid address."
  },
  {
   "property": "C44",
   "status": "partial",
   "theorems": [
    "C44_accepted_texts_partial",
    "C44_dotted_quad",
    "C44_refused_texts_partial",
    "C44_empty_number_refuted",
    "C44_fewer_numbers_refuted",
    "C44_leading_dot_refuted",
    "C44_large_number_refuted"
   ],
   "note": "Exact set of accepted texts; dotted quads are stored; refused texts leave the default object. Fewer than four numbers, an empty first number and numbers above the 16-bit range are accepted; an empty later number is undefined behaviour."
  },
  {
   "property": "C45",
   "status": "proved",
   "theorems": [
    "C45_validity",
    "C45_fits"
   ],
   "note": ""
  },
  {
   "property": "C46",
   "status": "proved",
   "theorems": [
    "C46_linearizable",
    "C46_no_race",
    "C46_no_deadlock"
   ],
   "note": "Any number of threads, any schedule; the order of effects, absence of simultaneous access and the possibility to finish are all covered."
  },
  {
   "property": "C47",
   "status": "proved",
   "theorems": [
    "C47_exclusion",
    "C47_released"
   ],
   "note": "Any number of threads and locks, nested scopes, every schedule."
  },
  {
   "property": "C48",
   "status": "partial",
   "theorems": [
    "C48_balance_partial",
    "C48_waits_partial",
    "C48_ledger_partial",
    "C48_next_partial",
    "C48_answer_partial",
    "C48_move_locked_refuted",
    "C48_move_onto_locked_refuted",
    "C48_copy_refuted",
    "C48_lock_twice_refuted",
    "C48_unlock_constructor_refuted"
   ],
   "note": "Exact for every history, misuse included: acquisitions plus unfounded releases (copies of locked lockers, unlocking what is not locked) are the releases, the claims still open and the forgotten acquisitions (locked lockers moved from, assigned over or locked again); so the numbers agree in the end exactly if as many were forgotten as are unfounded. Which calls are undefined and which wait is stated exactly too. Balanced for every proper history; false for each misuse."
  },
  {
   "property": "C49",
   "status": "partial",
   "theorems": [
    "C49_owned_partial",
    "C49_lost_partial",
    "C49_all_closed_partial",
    "C49_moved_from_refuted",
    "C49_assign_over_refuted",
    "C49_accepted_zero_refuted",
    "C49_assign_over_client_refuted"
   ],
   "note": "Exact for every history in which a moved-from object does not reconnect and is destroyed only while no other object owns descriptor 0: the open descriptors are those owned, each by one object, and those without an owner, which are those of the process and those lost by assignment over an owner or accepted with number 0; a moved-from object closes descriptor 0. If none of these is done, all is closed at the end (C49_all_closed_partial). Each is refuted."
  },
  {
   "property": "C50",
   "status": "partial",
   "theorems": [
    "C50_signal_outside_partial",
    "C50_signal_blocks_refuted"
   ],
   "note": "Delivered whenever the interrupted thread is not inside a queue call; inside one, the handler waits forever for the lock its own thread holds."
  },
  {
   "property": "C51",
   "status": "partial",
   "theorems": [
    "C51_clear_partial",
    "C51_clear_exact",
    "C51_clear_refuted"
   ],
   "note": "Exact content after clear; a stored value equal to the marker stops the emptying early."
  },
  {
   "property": "C52",
   "status": "partial",
   "theorems": [
    "C52_sequence_partial",
    "C52_without_insertions_partial",
    "C52_copy",
    "C52_iterators_partial",
    "C52_exact_partial",
    "C52_insert_full_refuted",
    "C52_insert_range_refuted",
    "C52_insert_new_refuted",
    "C52_insert_range_new_refuted",
    "C52_visit_empty_refuted",
    "C52_push_own_element_refuted"
   ],
   "note": "Holds for every history except insertions that leave the fixed part at a position other than 0, insertions into a container that holds nothing and visiting such a container; those are refuted for every capacity. C52_exact_partial gives the end of every history with valid positions: contents, place and capacity, UB, or a call that never returns."
  },
  {
   "property": "C53",
   "status": "proved",
   "theorems": [
    "C53_fifo",
    "C53_prefix"
   ],
   "note": "Every history of linear and circular reads and writes; memory available."
  },
  {
   "property": "C54",
   "status": "partial",
   "theorems": [
    "C54_wrapping_partial",
    "C54_refuted"
   ],
   "note": "Holds exactly for ranges that wrap (end before begin); for every other range the split goes once around the whole ring too far."
  },
  {
   "property": "C55",
   "status": "partial",
   "theorems": [
    "C55_lifetimes_partial",
    "C55_clean_refuted",
    "C55_copy_refuted"
   ],
   "note": "False of the code for clean() and for copied or moved containers; proved for every push/pop history. For programs with copies, moves and destructions see C236, which is exact."
  },
  {
   "property": "C56",
   "status": "partial",
   "theorems": [
    "C56_sized_construction_refuted",
    "C56_sized_construction_partial"
   ],
   "note": "False of the code for every n >= 2."
  },
  {
   "property": "C57",
   "status": "partial",
   "theorems": [
    "C57_lifetimes_partial",
    "C57_lifetimes_refuted",
    "C57_range_erase_refuted",
    "C57_lost_partial"
   ],
   "note": "False of the code for inner erase, inner emplace and inner range erase; proved for all other histories; C57_lost_partial counts exactly, for every history, the objects lost."
  },
  {
   "property": "C58",
   "status": "partial",
   "theorems": [
    "C58_list_copy_partial",
    "C58_list_copy_empty_refuted",
    "C58_list_move_partial",
    "C58_list_move_empty_refuted",
    "C58_list_move_assign_partial",
    "C58_list_move_assign_empty_refuted",
    "C58_list_initializer_partial"
   ],
   "note": "Proved for non-empty sources (copy) and sources whose tail was not erased (move); copying or moving an empty list is UB."
  },
  {
   "property": "C59",
   "status": "partial",
   "theorems": [
    "C59_concatenation_partial",
    "C59_concatenation_refuted"
   ],
   "note": "string + C string is proved; with a String on the right of + the right operand is dropped."
  },
  {
   "property": "C60",
   "status": "partial",
   "theorems": [
    "C60_copy_named_refuted",
    "C60_set_named_refuted",
    "C60_copy_const_partial"
   ],
   "note": "Copying from a const variant leaves the source alone; from a named non-const variant or object it moves."
  },
  {
   "property": "C61",
   "status": "partial",
   "theorems": [
    "C61_unique_partial",
    "C61_unique_pair_partial",
    "C61_unique_refuted",
    "C61_exact_partial"
   ],
   "note": "Exact: refused are only packs whose last two types are the same and all others different. Packs without repetition are accepted, pairs are judged correctly, every longer pack whose first type occurs again is accepted too."
  },
  {
   "property": "C62",
   "status": "partial",
   "theorems": [
    "C62_assign_partial",
    "C62_assign_const_error_refuted",
    "C62_construct"
   ],
   "note": "Holds for three of the four overloads; a const error is lost."
  },
  {
   "property": "C63",
   "status": "partial",
   "theorems": [
    "C63_copy_partial",
    "C63_copy_refuted"
   ],
   "note": "The copy moves out of the const source: true exactly for values that a move leaves as they are."
  },
  {
   "property": "C64",
   "status": "proved",
   "theorems": [
    "C64_length"
   ],
   "note": ""
  },
  {
   "property": "C65",
   "status": "proved",
   "theorems": [
    "C65_foreach"
   ],
   "note": ""
  },
  {
   "property": "C66",
   "status": "partial",
   "theorems": [
    "C66_arithmetic_partial",
    "C66_wrap_partial",
    "C66_mul16_refuted",
    "C66_shift_partial",
    "C66_convert",
    "C66_or"
   ],
   "note": "Exact results whenever they fit; wrap-around for unsigned types except 16-bit multiplication, which overflows int."
  },
  {
   "property": "C67",
   "status": "partial",
   "theorems": [
    "C67_create_once_partial",
    "C67_create_once_refuted"
   ],
   "note": "Holds when the first registration has returned before the others start; two simultaneous first registrations can reset the queue and lose an event."
  },
  {
   "property": "C68",
   "status": "proved",
   "theorems": [
    "C68_maximum_minimum"
   ],
   "note": ""
  },
  {
   "property": "C69",
   "status": "partial",
   "theorems": [
    "C69_semaphore_partial",
    "C69_interrupted_refuted"
   ],
   "note": "Holds as long as no wait is interrupted; an interrupted wait lets the thread in without having acquired, and leaving raises the value."
  },
  {
   "property": "C70",
   "status": "partial",
   "theorems": [
    "C70_status_taken_partial",
    "C70_status_race_refuted"
   ],
   "note": "The member status is written after unlock has given the lock away, at the same time as the next owner writes it."
  },
  {
   "property": "C71",
   "status": "proved",
   "theorems": [
    "C71_order_no_deadlock",
    "C71_order_needed"
   ],
   "note": "Spin, Mutex and Semaphore (initially above zero, waits not interrupted)."
  },
  {
   "property": "C72",
   "status": "partial",
   "theorems": [
    "C72_tcp_server_partial",
    "C72_successful_creation",
    "C72_failed_creation_refuted",
    "C72_moved_from_refuted"
   ],
   "note": "Exact for TcpServer; UdpServer, UdpClient and TcpClient report success whatever system call failed."
  },
  {
   "property": "C73",
   "status": "partial",
   "theorems": [
    "C73_client_address_partial",
    "C73_client_address_refuted",
    "C73_port_wraps_refuted"
   ],
   "note": "Holds exactly for the addresses without an octet in 100..109 or 200..209."
  },
  {
   "property": "C74",
   "status": "partial",
   "theorems": [
    "C74_port_partial",
    "C74_address_refuted",
    "C74_reconnect_refuted"
   ],
   "note": "Only the port is read back; the address is wrong for all addresses but a.0.0.0; reconnection of 127.0.0.1, 10.0.0.1, 192.168.x.y and others goes to 255.255.255.255."
  },
  {
   "property": "C75",
   "status": "partial",
   "theorems": [
    "C75_exact_partial",
    "C75_more_bytes_refuted"
   ],
   "note": "Returns only if some poll sees exactly n bytes or an error; never returns when more bytes arrive at once."
  },
  {
   "property": "C76",
   "status": "partial",
   "theorems": [
    "C76_reply_partial",
    "C76_reply_after_wait_refuted",
    "C76_server_moved_refuted"
   ],
   "note": "Holds after receive while the server object stays in place; a reply between wait and receive is undefined."
  },
  {
   "property": "C77",
   "status": "partial",
   "theorems": [
    "C77_linear_partial",
    "C77_wrapping_partial",
    "C77_end_of_ring_refuted",
    "C77_short_refuted",
    "C77_second_fails_refuted",
    "C77_not_wrapping_refuted"
   ],
   "note": "Right for every linear range; for circular ranges only when the range wraps, does not end at the end of the ring, the first call is complete and none fails. The other cases are refuted."
  },
  {
   "property": "C78",
   "status": "partial",
   "theorems": [
    "C78_linear_partial",
    "C78_wrapping_partial",
    "C78_end_of_ring_refuted",
    "C78_short_refuted",
    "C78_second_fails_refuted",
    "C78_not_wrapping_refuted"
   ],
   "note": "As C77, for writing."
  },
  {
   "property": "C79",
   "status": "partial",
   "theorems": [
    "C79_linear_partial",
    "C79_refuted"
   ],
   "note": "Right for linear ranges; for circular ranges a failure is reported as -2 and not recorded."
  },
  {
   "property": "C80",
   "status": "partial",
   "theorems": [
    "C80_ownership_partial",
    "C80_lost_partial",
    "C80_no_leak_partial",
    "C80_assign_refuted",
    "C80_self_assign_refuted",
    "C80_continue_refuted"
   ],
   "note": "Exact for all histories in which continueOwning is not asked of a stream that does not own: each descriptor is open exactly as the responsibilities say, and those left open at the end are those of the program and those of streams that another (or itself) was assigned to while owning. Without such assignments nothing is lost. Assignment to an owner, self-assignment and continueOwning of a non-owner are refuted."
  },
  {
   "property": "C81",
   "status": "partial",
   "theorems": [
    "C81_exact_partial",
    "C81_plain_partial",
    "C81_move_refuted",
    "C81_assign_refuted",
    "C81_open_refuted",
    "C81_setName_refuted",
    "C81_default_refuted"
   ],
   "note": "Exact for every program: when it is undefined, and which files, writers, names and descriptors it leaves, read off the calls. The property itself holds for writers that are only made from a name and destroyed; a writer deletes under the name it was constructed with, whatever it opened or was moved from."
  },
  {
   "property": "C82",
   "status": "partial",
   "theorems": [
    "C82_refuted",
    "C82_opened_refuted"
   ],
   "note": "False for every NamedPipeStream."
  },
  {
   "property": "C83",
   "status": "proved",
   "theorems": [
    "C83_linearizable",
    "C83_no_race",
    "C83_no_deadlock"
   ],
   "note": ""
  },
  {
   "property": "C84",
   "status": "partial",
   "theorems": [
    "C84_no_notification_partial",
    "C84_one_waiter_partial",
    "C84_wait_again_refuted",
    "C84_counter_wraps_refuted"
   ],
   "note": "Holds for one waiting thread; refuted in general."
  },
  {
   "property": "C85",
   "status": "partial",
   "theorems": [
    "C85_wakes_partial",
    "C85_two_waiters_refuted",
    "C85_other_thread_refuted"
   ],
   "note": "Holds for one waiting thread under every fair schedule; refuted for two waiting threads and for locks that belong to a thread."
  },
  {
   "property": "C86",
   "status": "partial",
   "theorems": [
    "C86_never_blocks_partial",
    "C86_always_true_refuted",
    "C86_other_thread_refuted"
   ],
   "note": "It never blocks; what it returns is refuted."
  },
  {
   "property": "C87",
   "status": "partial",
   "theorems": [
    "C87_race_refuted",
    "C87_one_place_partial",
    "C87_accesses"
   ],
   "note": "Refuted; the race is confined to one place."
  },
  {
   "property": "C88",
   "status": "partial",
   "theorems": [
    "C88_sequential_partial",
    "C88_lock_refuted",
    "C88_try_lock_refuted"
   ],
   "note": "Calls that do not overlap behave like a lock; mutual exclusion is refuted."
  },
  {
   "property": "C89",
   "status": "partial",
   "theorems": [
    "C89_value_partial",
    "C89_get_value_refuted"
   ],
   "note": "Exact when no other call runs; getValue concurrent with waits spoils the value for ever."
  },
  {
   "property": "C90",
   "status": "partial",
   "theorems": [
    "C90_tokens_partial",
    "C90_exact_partial",
    "C90_zero_partial",
    "C90_post_refuted",
    "C90_zero_refuted"
   ],
   "note": "C90_exact_partial, C90_zero_partial: for any schedule of any calls, how many tokens there are, and what the next call does. Holds if threads give back only what they took; post above the initial value and the value 0 are refuted."
  },
  {
   "property": "C91",
   "status": "partial",
   "theorems": [
    "C91_exact_partial",
    "C91_lifetime_partial",
    "C91_join_refuted",
    "C91_run_join_refuted",
    "C91_running_refuted",
    "C91_failed_run_refuted",
    "C91_run_twice_refuted"
   ],
   "note": "C91_exact_partial: for every history, exactly when it is undefined, what every call answers, which threads are released and which are lost. The property itself holds for histories without join, detach, a second or failing run, and deletion before the end of the body; those are refuted."
  },
  {
   "property": "C92",
   "status": "partial",
   "theorems": [
    "C92_assign_partial",
    "C92_move_refuted",
    "C92_assign_refuted",
    "C92_self_assign_refuted"
   ],
   "note": "Only assignment to an object without a thread works."
  },
  {
   "property": "C93",
   "status": "partial",
   "theorems": [
    "C93_detach_partial",
    "C93_detach_refuted",
    "C93_delete_refuted"
   ],
   "note": "Depends on what the system does with attributes that are not initialised; the object must outlive the body."
  },
  {
   "property": "C94",
   "status": "partial",
   "theorems": [
    "C94_status_partial",
    "C94_status_refuted",
    "C94_attributes_refuted"
   ],
   "note": "A failure is reported exactly if errno happens not to be 0."
  },
  {
   "property": "C95",
   "status": "partial",
   "theorems": [
    "C95_working_partial",
    "C95_refuted"
   ],
   "note": "True while the body runs; otherwise undefined or decided by the system."
  },
  {
   "property": "C96",
   "status": "partial",
   "theorems": [
    "C96_lifetime_partial",
    "C96_exact_partial",
    "C96_failed_mutex_partial",
    "C96_skipped_refuted",
    "C96_failed_refuted"
   ],
   "note": "Holds when constructions succeed and no destructor finds the bytes of the initializer. A failed construction is harmless only for a Mutex, and only if errno is not 0 (C223). C96_exact_partial: exactly which histories without assignments are defined, and which objects of the system are left."
  },
  {
   "property": "C97",
   "status": "partial",
   "theorems": [
    "C97_source_partial",
    "C97_move_refuted",
    "C97_assign_refuted",
    "C97_semaphore_refuted"
   ],
   "note": "False for every kind of lock."
  },
  {
   "property": "C98",
   "status": "partial",
   "theorems": [
    "C98_try_lock",
    "C98_try_wait_partial",
    "C98_other_error_refuted"
   ],
   "note": "tryLock for every answer; tryWait for the errors POSIX lists."
  },
  {
   "property": "C99",
   "status": "partial",
   "theorems": [
    "C99_assign_partial",
    "C99_exact_partial",
    "C99_negative_refuted",
    "C99_bits_refuted"
   ],
   "note": "Holds for widths that are a multiple of 8 unless a negative number is assigned to a wider wide integer."
  }
 ]
}