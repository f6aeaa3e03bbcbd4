{
 "claims": [
  {
   "property": "C01",
   "status": "proved",
   "theorems": [
    "C01_no_key_ties",
    "C01_queue_is_priority_queue",
    "C01_top_is_next_pop"
   ],
   "note": "queue.py over a model of CPython heapq; ties of the full sort key (Python would compare Message objects) are excluded by C01_no_key_ties for every reachable loop state."
  },
  {
   "property": "C02",
   "status": "proved",
   "theorems": [
    "C02_never_early"
   ],
   "note": "Any handler, any label sequence."
  },
  {
   "property": "C03",
   "status": "partial",
   "theorems": [
    "C03_bounded_sources_partial",
    "C03_dispatch_order_partial",
    "C03_subsecond_refuted"
   ],
   "note": "Proved for instants on whole seconds (any sources in order, and unconditionally for bounded sources); refuted for a market period with a sub-second opening time."
  },
  {
   "property": "C04",
   "status": "proved",
   "theorems": [
    "C04_boot",
    "C04_complete",
    "C04_empty_queue_ends",
    "C04_exactly_once"
   ],
   "note": "Bounded sources, any executions; fuel larger than the number of days of each window."
  },
  {
   "property": "C05",
   "status": "proved",
   "theorems": [
    "C05_no_lost_wakeup",
    "C05_wakeup_dispatches"
   ],
   "note": "Timer deadline is the wall time aimed at when arming; wall-clock jumps between arming and firing are the environment's."
  },
  {
   "property": "C06",
   "status": "proved",
   "theorems": [
    "C06_empty_queue_stops",
    "C06_exception_stops",
    "C06_run_result",
    "C06_signal_stops",
    "C06_stopped_dispatches_nothing"
   ],
   "note": "Exceptions are Exception subclasses with default truth value; BaseException is outside the model."
  },
  {
   "property": "C07",
   "status": "partial",
   "theorems": [
    "C07_delivered_signal_partial",
    "C07_signal_after_current_task_refuted"
   ],
   "note": "Full statement refuted (C07_signal_after_current_task_refuted): any number of callbacks may start after the signal arrives. Proved: nothing starts after delivery."
  },
  {
   "property": "C08",
   "status": "partial",
   "theorems": [
    "C08_strategy_dt_partial",
    "C08_subsecond_refuted"
   ],
   "note": "Proved for whole-second instants other than the epoch; refuted for sub-second instants."
  },
  {
   "property": "C09",
   "status": "partial",
   "theorems": [
    "C09_bounded_stream_partial",
    "C09_cross_midnight_refuted",
    "C09_no_other_day_partial"
   ],
   "note": "Proved for the days date(start)..date(end) and all offsets; these are all instants in the window for tasks within their day. Refuted for tasks that cross midnight (C09_cross_midnight_refuted)."
  },
  {
   "property": "C10",
   "status": "partial",
   "theorems": [
    "C10_first_window_partial",
    "C10_replay_refuted"
   ],
   "note": "Proved for the first generation window (365 days by default); refuted beyond it: the last day is replayed."
  },
  {
   "property": "C11",
   "status": "partial",
   "theorems": [
    "C11_bounded_returns_partial",
    "C11_empty_source_refuted",
    "C11_every_minute_no_minutes_refuted",
    "C11_live_never_loops_partial",
    "C11_live_process_partial",
    "C11_live_returns_partial",
    "C11_next_reading",
    "C11_no_reading",
    "C11_reading",
    "C11_sync_timer_late_start_refuted"
   ],
   "note": "Proved for sources with an end and for live sources with at least one entry (start not after today, window >= 8 days); whole processes that have been started never hang (C11_live_process_partial, and C125_returns with an end date or history); readings of the date after the first of a generation do not matter (C11_reading, C11_no_reading); refuted for a live source without entries, which arises from every_minute with no minute in the market periods and from the sync timer started within one interval of 23:59:59."
  },
  {
   "property": "C12",
   "status": "proved",
   "theorems": [
    "C12_peek_is_preview"
   ],
   "note": "Any two dates, any fuel >= 1 for the later calls."
  },
  {
   "property": "C13",
   "status": "partial",
   "theorems": [
    "C13_accepted_form_partial",
    "C13_meaning_partial",
    "C13_newline_refuted",
    "C13_rejected_partial",
    "C13_repeated_unit_refuted",
    "C13_unknown_base_refuted"
   ],
   "note": "Accepted form and value proved for all strings without repeated units; refuted: repeated unit (last wins), trailing newline accepted, unknown base raises KeyError."
  },
  {
   "property": "C14",
   "status": "partial",
   "theorems": [
    "C14_every_minute_events_partial",
    "C14_every_minute_partial",
    "C14_parsed_periods",
    "C14_string_periods_whole",
    "C14_subsecond_refuted"
   ],
   "note": "Proved for periods starting on whole seconds (all string-given ones); refuted for datetime.time starts with a sub-second part, which strftime truncates."
  },
  {
   "property": "C15",
   "status": "partial",
   "theorems": [
    "C15_closed_partial",
    "C15_init_raises_refuted",
    "C15_invalid_call_partial",
    "C15_nameless_refuted"
   ],
   "note": "Proved for every call sequence; corners refuted: objects without __name__ raise AttributeError, and a process_initialize that raises leaves the API open."
  },
  {
   "property": "C16",
   "status": "partial",
   "theorems": [
    "C16_api_name_refuted",
    "C16_classes_distinct",
    "C16_entry_calls_once",
    "C16_entry_drives_partial",
    "C16_lambda_refuted",
    "C16_same_name_refuted"
   ],
   "note": "Proved when the function's __name__ denotes it in the module after process_initialize; refuted for two functions of one name, lambdas, and functions named like an API."
  },
  {
   "property": "C17",
   "status": "partial",
   "theorems": [
    "C17_daily_returns_refuted",
    "C17_retired_message_partial",
    "C17_unscheduled_partial"
   ],
   "note": "Refuted: daily() on a scheduled source never returns, since every round appends to the callback list being iterated. Proved: it returns on a never scheduled source, and a retired schedule's message is inert."
  },
  {
   "property": "C18",
   "status": "partial",
   "theorems": [
    "C18_delivery_partial",
    "C18_double_registration_refuted",
    "C18_exception_partial",
    "C18_own_class_partial",
    "C18_unregister_others_partial",
    "C18_unregister_partial"
   ],
   "note": "Delivery proved for all histories; unregister proved when the callback is registered at most once per priority; refuted for a callback registered twice."
  },
  {
   "property": "C19",
   "status": "partial",
   "theorems": [
    "C19_night_gap_refuted",
    "C19_subsecond_refuted",
    "C19_sync_period_partial",
    "C19_sync_timer_partial",
    "C19_whole_seconds",
    "C19_zero_interval_refuted"
   ],
   "note": "Proved: one task per interval from start-up to 23:59:59, or per sync_period. Refuted: no syncs before the start time-of-day on any day; interval 0 hangs; sub-second intervals are truncated."
  },
  {
   "property": "C20",
   "status": "partial",
   "theorems": [
    "C20_accepted_partial",
    "C20_rejected_partial",
    "C20_separator_refuted",
    "C20_type_error_refuted"
   ],
   "note": "Accepted arguments characterised exactly and each reaches the gate once; everything else raises without effect. Refuted: the separator before the exchange is not checked, and an unsliceable code (or unhashable side) raises TypeError."
  },
  {
   "property": "C21",
   "status": "partial",
   "theorems": [
    "C21_long_partial",
    "C21_short_refuted"
   ],
   "note": "Refuted for every order with side 'short': it is submitted as a long order. Holds for long orders."
  },
  {
   "property": "C22",
   "status": "partial",
   "theorems": [
    "C22_comma_refuted",
    "C22_header",
    "C22_order_line_partial",
    "C22_text_price_refuted"
   ],
   "note": "C22_header: the columns and their names. Proved for codes, account and options without commas and numeric limit prices; refuted for a comma in the order id/account settings and for a text price."
  },
  {
   "property": "C23",
   "status": "partial",
   "theorems": [
    "C23_none_refuted",
    "C23_order_file_partial",
    "C23_return_value_partial",
    "C23_save_refuted"
   ],
   "note": "Account part for every gate; order file: an accepted order appends exactly its one line. Refuted: after None the order stays in the book, and a failing save leaves the line submitted."
  },
  {
   "property": "C24",
   "status": "proved",
   "theorems": [
    "C24_effect",
    "C24_entry",
    "C24_one_entry_per_request"
   ],
   "note": "For every gate and every list of request dicts."
  },
  {
   "property": "C25",
   "status": "proved",
   "theorems": [
    "C25_batch",
    "C25_batch_file",
    "C25_cancel",
    "C25_cancel_file",
    "C25_header"
   ],
   "note": "For every gate (including one that raises), and for the cancel file of the AnXin gate: a completed write appends exactly one line; a failing write appends none or a torn one."
  },
  {
   "property": "C26",
   "status": "proved",
   "theorems": [
    "C26_bad_status",
    "C26_get_orders",
    "C26_names"
   ],
   "note": "For every reachable book; a status that is no name is refused (C26_bad_status, C26_names), as is a malformed code."
  },
  {
   "property": "C27",
   "status": "proved",
   "theorems": [
    "C27_snapshots"
   ],
   "note": "Order objects are shared between the book and UserOrder; over every history of API calls and gate states."
  },
  {
   "property": "C28",
   "status": "partial",
   "theorems": [
    "C28_agrees_partial",
    "C28_err_msg_refuted"
   ],
   "note": "Proved for status, amounts, balance, average price, confirmation id and commission; refuted for the error message (a report that differs only there is ignored). Orders that are not reported: C107."
  },
  {
   "property": "C29",
   "status": "proved",
   "theorems": [
    "C29_not_missing",
    "C29_notices"
   ],
   "note": "For every report list and every book; also that no such notice is missing."
  },
  {
   "property": "C30",
   "status": "partial",
   "theorems": [
    "C30_as_reported_partial",
    "C30_failed_unchanged_partial",
    "C30_midway_refuted",
    "C30_money",
    "C30_positions",
    "C30_zero_refuted"
   ],
   "note": "Proved for complete reports without zero cash values, and for syncs failing before the positions. Refuted: a reported zero keeps the old value; a bad position loses the previous positions. Over whole histories: C30_money (money is the last reported figure that is not zero, 0 before any) and C30_positions (positions are those of the last full report up to the first incomplete one)."
  },
  {
   "property": "C31",
   "status": "proved",
   "theorems": [
    "C31_closeable",
    "C31_locked",
    "C31_never_oversold"
   ],
   "note": "For every history of orders, cancels and order syncs and every gate, with a reported available amount >= 0; C31_locked: what was sold is shown as locked."
  },
  {
   "property": "C32",
   "status": "partial",
   "theorems": [
    "C32_position_value_refuted",
    "C32_views_partial"
   ],
   "note": "Views proved for reachable accounts; refuted: position_value raises AttributeError as soon as there is a long position."
  },
  {
   "property": "C33",
   "status": "partial",
   "theorems": [
    "C33_fresh_id_partial",
    "C33_repeated_id_refuted"
   ],
   "note": "Refuted: ids are unchecked 32-bit random numbers; a repeated id overwrites the recorded order. Proved: a fresh id overwrites nothing."
  },
  {
   "property": "C34",
   "status": "partial",
   "theorems": [
    "C34_header_refuted",
    "C34_lines_partial",
    "C34_one_header_partial",
    "C34_windows_refuted"
   ],
   "note": "Lines: proved for any number of writers, interleavings, time-outs and kills where appending is atomic (POSIX); it has exactly one header if no two writers open the empty file together. The lock is C103, where headers stand is C115. Refuted: two writers that open the new file together both write a header; where appending is not atomic (Windows) a completed submission is overwritten."
  },
  {
   "property": "C35",
   "status": "proved",
   "theorems": [
    "C35_injective",
    "C35_inverse"
   ],
   "note": "For every code accepted by order()."
  },
  {
   "property": "C36",
   "status": "partial",
   "theorems": [
    "C36_incremental_partial",
    "C36_last_line_partial",
    "C36_line_break_refuted",
    "C36_refuted"
   ],
   "note": "Proved for every history in which each sync sees complete lines plus an unfinished one with fewer than 20 columns and no order is both rejected and updated; refuted: a line seen without its line break blocks the reader for good."
  },
  {
   "property": "C37",
   "status": "partial",
   "theorems": [
    "C37_later_lines_partial",
    "C37_short_line_refuted",
    "C37_short_result_refuted"
   ],
   "note": "Proved for malformed lines with at least 20 columns; refuted for every shorter or empty line: nothing behind it is ever read."
  },
  {
   "property": "C38",
   "status": "partial",
   "theorems": [
    "C38_refuted",
    "C38_unchanged_partial"
   ],
   "note": "Refuted: a line with a valid status and a bad time is skipped but changes the status. Proved for an unknown status and for too many columns."
  },
  {
   "property": "C39",
   "status": "partial",
   "theorems": [
    "C39_refuted",
    "C39_restart_partial"
   ],
   "note": "Proved under the conditions of C36; refuted when an order is both updated and rejected."
  },
  {
   "property": "C40",
   "status": "partial",
   "theorems": [
    "C40_behind_partial",
    "C40_refuted",
    "C40_rest_partial"
   ],
   "note": "Refuted: read positions are carried over to the next day's files. Proved: of today's files exactly the part behind the positions is applied (C40_rest_partial), so that each known order, of whatever day, has the values of its last line there (C40_behind_partial); from the beginning in a process started that day."
  },
  {
   "property": "C41",
   "status": "partial",
   "theorems": [
    "C41_before_or_after_partial",
    "C41_never_torn_partial",
    "C41_undisturbed",
    "C41_windows_partial",
    "C41_windows_refuted"
   ],
   "note": "Proved for POSIX (atomic rename) at every crash point; refuted on Windows, where the move copies the file and a crash leaves it torn. On either platform an undisturbed save is complete (C41_undisturbed), and on Windows a file is torn only during the copy, or after a crash or failure in it (C41_windows_partial)."
  },
  {
   "property": "C42",
   "status": "partial",
   "theorems": [
    "C42_acknowledged_partial",
    "C42_acknowledged_running_partial",
    "C42_lines_partial",
    "C42_orphan_refuted",
    "C42_recovered_submitted_partial",
    "C42_steps",
    "C42_windows_partial",
    "C42_windows_refuted"
   ],
   "note": "Proved on POSIX for processes set up on the day of the order: acknowledged orders are known after every crash and restart, and every recovered order has its line. Refuted: killed between writing the line and saving, the line belongs to no recovered order; on Windows a kill during the copy loses acknowledged orders, and nothing else does (C42_windows_partial)."
  },
  {
   "property": "C43",
   "status": "partial",
   "theorems": [
    "C43_refuted",
    "C43_sync_works_partial"
   ],
   "note": "Proved for orders whose price JSON can represent; refuted for any other price: every later sync fails."
  },
  {
   "property": "C44",
   "status": "partial",
   "theorems": [
    "C44_all_positions_partial",
    "C44_positions_partial",
    "C44_positions_refuted",
    "C44_sync_truncated_partial",
    "C44_truncated_number_partial",
    "C44_truncated_partial",
    "C44_truncated_refuted"
   ],
   "note": "Proved: files whose records start with digits are rejected at every truncation point before the ending record; the cash and the positions are those of the account, in file order. Refuted for records with an empty first field, and a record of the account without symbol hides the positions behind it."
  },
  {
   "property": "C45",
   "status": "partial",
   "theorems": [
    "C45_refuted",
    "C45_same_day_partial"
   ],
   "note": "Proved when the restart is on the day the process was set up; refuted for a process running since an earlier day: the data file is named by the set-up day."
  },
  {
   "property": "C46",
   "status": "proved",
   "theorems": [
    "C46_anything",
    "C46_ends",
    "C46_plain",
    "C46_retry",
    "C46_waits"
   ],
   "note": "C46_retry gives the exact number of calls and the result for every outcome sequence, C46_waits the sleeps between them; C46_anything has all that can be raised (errors that are no Exceptions, by on_exception, by the wait) and endless retries, C46_ends that it ends, C46_plain that the two models agree. What happens when the gate is set up again is C102."
  },
  {
   "property": "C47",
   "status": "partial",
   "theorems": [
    "C47_equals_refuted",
    "C47_info_partial",
    "C47_spellings_refuted"
   ],
   "note": "Proved for the documented option words with separate values; refuted for the other spellings argparse accepts (--name=x, -nx, --nam x)."
  },
  {
   "property": "C48",
   "status": "partial",
   "theorems": [
    "C48_exclusive_partial",
    "C48_own_parent_refuted",
    "C48_parent_hidden_refuted",
    "C48_spelling_refuted"
   ],
   "note": "Proved for every interleaving on machines where no task is the parent of another process speaking of start_task and names can be read; refuted for tasks started by tasks and for a name given in two spellings."
  },
  {
   "property": "C49",
   "status": "partial",
   "theorems": [
    "C49_bystander_refuted",
    "C49_denied_refuted",
    "C49_nothing_given",
    "C49_only_speakers",
    "C49_parent_refuted",
    "C49_stop_partial",
    "C49_unreadable_refuted"
   ],
   "note": "Proved for processes speaking of start_task that are parents of no other one, if all can be inspected and named; refuted: bystanders are signalled, parents never, an unreadable name or process ends the command."
  },
  {
   "property": "C50",
   "status": "partial",
   "theorems": [
    "C50_environment_partial",
    "C50_parse_partial",
    "C50_refuted"
   ],
   "note": "Proved for names and values without ; and = inside; refuted for a value with = and for a trailing ;."
  },
  {
   "property": "C51",
   "status": "partial",
   "theorems": [
    "C51_documented_partial",
    "C51_documented_refuted",
    "C51_others_keep",
    "C51_override_partial",
    "C51_refuted",
    "C51_settings"
   ],
   "note": "Proved for settings whose name does not start with a letter of the prefix; refuted for all others (e.g. RUNTIME_DIR, TRADE_GATE), which are never changed because lstrip strips letters. C51_documented_partial and C51_documented_refuted name the documented settings on either side."
  },
  {
   "property": "C52",
   "status": "partial",
   "theorems": [
    "C52_back_refuted",
    "C52_not_monotone_refuted",
    "C52_subsecond_refuted",
    "C52_whole_seconds_back_partial",
    "C52_whole_seconds_partial"
   ],
   "note": "Exact for whole seconds; refuted for sub-second parts, which are counted twice."
  },
  {
   "property": "C53",
   "status": "partial",
   "theorems": [
    "C53_round_trip_partial",
    "C53_style_price_refuted"
   ],
   "note": "Proved for all orders of a running strategy with times in the years 1000-9999; refuted for order objects whose style carries another price."
  },
  {
   "property": "C54",
   "status": "partial",
   "theorems": [
    "C54_batch_refuted",
    "C54_disabled_partial",
    "C54_enabled_partial",
    "C54_failed_set_options_refuted"
   ],
   "note": "Refuted for batch_submit_orders (returns Nones) and after a failed set_options(use_account=True) (AttributeError); otherwise proved."
  },
  {
   "property": "C55",
   "status": "partial",
   "theorems": [
    "C55_any_calls",
    "C55_many_calls_refuted",
    "C55_one_account_partial",
    "C55_raised_refuted",
    "C55_two_calls_refuted"
   ],
   "note": "Proved for one successful set_options; C55_any_calls says for every list of calls which accounts a sync event syncs. Refuted for more: n calls leave n accounts syncing and n timers (C55_many_calls_refuted); if a later call raises after it made its account, that account is the strategy's and nothing syncs it (C55_raised_refuted)."
  },
  {
   "property": "C56",
   "status": "proved",
   "theorems": [
    "C56_print"
   ],
   "note": "All argument combinations."
  },
  {
   "property": "C57",
   "status": "partial",
   "theorems": [
    "C57_dot_refuted",
    "C57_imported_refuted",
    "C57_loads_partial"
   ],
   "note": "Proved when no module of that name was imported before or found earlier; refuted for a file named like an imported module and for names with a dot."
  },
  {
   "property": "C58",
   "status": "proved",
   "theorems": [
    "C58_calls_are_owed",
    "C58_owed_exists"
   ],
   "note": "For sources within the window generated at start-up, under the conditions in the statement; the names resolve to the functions given (C16 covers when they do not)."
  },
  {
   "property": "C59",
   "status": "proved",
   "theorems": [
    "C59_nothing_overtaken"
   ],
   "note": "For states in which event generation has not hung (C11) and a UTC offset in whole seconds."
  },
  {
   "property": "C60",
   "status": "proved",
   "theorems": [
    "C60_no_due_call_left",
    "C60_not_early"
   ],
   "note": "For states in which event generation has not hung (C11) and a UTC offset in whole seconds."
  },
  {
   "property": "C61",
   "status": "partial",
   "theorems": [
    "C61_ties_in_order_partial",
    "C61_ties_in_order_refuted",
    "C61_years_partial"
   ],
   "note": "Proved for entries owed the same instants: within the window generated at start-up (C61_ties_in_order_partial), and however long the process runs if callbacks end on the day they were due (C61_years_partial: the later entry's calls are always a beginning of the earlier one's). Refuted in general: each entry reads its own clock during start-up; when the shared time falls between the two readings the later entry is called first from the next day on."
  },
  {
   "property": "C62",
   "status": "proved",
   "theorems": [
    "C62_no_due_sync_left",
    "C62_sync_before_tasks",
    "C62_syncs_are_owed"
   ],
   "note": "Within the window of days generated at start-up; order and sleep for states in which event generation has not hung (C11) and a UTC offset in whole seconds. Processes with several set_options calls are covered by C55."
  },
  {
   "property": "C63",
   "status": "proved",
   "theorems": [
    "C63_linearizable",
    "C63_lock_needed",
    "C63_no_deadlock"
   ],
   "note": "The interleaving is finer than CPython's. C63_lock_needed shows the statement false for PriorityQueue without the lock."
  },
  {
   "property": "C64",
   "status": "partial",
   "theorems": [
    "C64_numbers_partial",
    "C64_numbers_refuted",
    "C64_push_partial",
    "C64_push_refuted",
    "C64_set_back_refuted"
   ],
   "note": "Proved for messages created one at a time and for pushes of new keys. Refuted under threads: the counter is read and stored without a lock, so numbers repeat (also later, as the counter can be set back); pushing a message that ties raises TypeError and leaves it queued."
  },
  {
   "property": "C65",
   "status": "partial",
   "theorems": [
    "C65_anxin_partial",
    "C65_no_news_partial",
    "C65_refuted",
    "C65_twice_partial"
   ],
   "note": "Proved for reports with at most one entry per order, also when the sync fails midway. Refuted for a report with two different entries for one order: every sync applies both and gives the notice again."
  },
  {
   "property": "C66",
   "status": "partial",
   "theorems": [
    "C66_once_partial",
    "C66_refuted"
   ],
   "note": "Once-only follows from C108_notices if the broker never takes back a final status (C66_once_partial). Refuted when it does: a second notice (C66_refuted)."
  },
  {
   "property": "C67",
   "status": "proved",
   "theorems": [
    "C67_error",
    "C67_read",
    "C67_unique",
    "C67_written"
   ],
   "note": "Including the one-digit fields strptime accepts. Texts with non-ASCII digits, several white-space characters or another one than a blank, or a blank before the day are outside the claim (this model rejects them all); C129 has every text."
  },
  {
   "property": "C68",
   "status": "partial",
   "theorems": [
    "C68_no_files_refuted",
    "C68_refuted",
    "C68_restart_partial",
    "C68_shown_partial"
   ],
   "note": "Proved under the conditions of C36 on what each sync sees (complete lines, no order both rejected and updated), for broker times in years 1000 to 9999. Refuted: a line seen without its line break hides the final fill from the strategy; after a restart without the broker's files no saved order is shown."
  },
  {
   "property": "C69",
   "status": "partial",
   "theorems": [
    "C69_clock_refuted",
    "C69_ends_partial",
    "C69_late_refuted",
    "C69_overshoot_partial"
   ],
   "note": "The wait ends if every round advances the clock (C69_ends_partial), and TimeOut then comes less than one round late (C69_overshoot_partial). Refuted: the time-out is only looked at once per polling interval, so an interval above the time-out makes the wait longer; and time.time() may be set back, so without the condition on the clock there is no bound."
  },
  {
   "property": "C70",
   "status": "partial",
   "theorems": [
    "C70_consistent_partial",
    "C70_refuted",
    "C70_until_saved_partial"
   ],
   "note": "Proved on POSIX: save files stay complete and hold only orders with a line, whatever reads fail (C70_consistent_partial); until the next save takes effect, a later start recovers the orders (C70_until_saved_partial). Refuted after that: _load_orders swallows the failure and continues with no orders, and the order sync made at start-up overwrites the file with an empty book."
  },
  {
   "property": "C71",
   "status": "partial",
   "theorems": [
    "C71_broker_names",
    "C71_case_refuted",
    "C71_own_partial",
    "C71_slash_refuted"
   ],
   "note": "Proved, in both directions, for task names without a slash and days in years 1000 to 9999, on POSIX without symbolic links. C71_broker_names: the names of the broker's files. Refuted: a task name is not checked for path separators, so the task '../data/a' shares the save file of 'a'; on file systems that ignore case, names differing in case only share theirs."
  },
  {
   "property": "C72",
   "status": "partial",
   "theorems": [
    "C72_anywhere_partial",
    "C72_refuted",
    "C72_runtime_partial"
   ],
   "note": "The first part is proved for options not beginning with a tilde, the second for absolute directories and so for the default. Refuted for '~/...': set_options expands the tilde, the trade gate does not, so the orders are saved below a directory named '~' of the working directory and not found from another one."
  },
  {
   "property": "C73",
   "status": "partial",
   "theorems": [
    "C73_bystander_refuted",
    "C73_only_active",
    "C73_parent_refuted",
    "C73_shown_partial",
    "C73_spelling_refuted"
   ],
   "note": "Proved if every process can be inspected and each active process (mentions jqtrade and start_task and is not the parent of such a process) was started in the documented spellings; that nothing but active processes is shown needs no spelling condition. Refuted: a task started with --name=x, or an editor on a file of that name, ends the command with KeyError and the tasks after it are not shown; a task that has started another is not shown."
  },
  {
   "property": "C74",
   "status": "partial",
   "theorems": [
    "C74_exact",
    "C74_one",
    "C74_only_partial",
    "C74_refuted",
    "C74_routed_partial"
   ],
   "note": "Proved as stated for strategies that set no levels; for all strategies, exactly which lines are written, once, in order and to the one place (C74_exact, C74_one). Refuted: after log.setLevel('DEBUG') debug messages of a strategy reach the standard output but not a log file, since only the file handler has a level of its own."
  },
  {
   "property": "C75",
   "status": "partial",
   "theorems": [
    "C75_account_starts_partial",
    "C75_checks_refuted",
    "C75_late_refuted",
    "C75_proper_starts_partial",
    "C75_refuted",
    "C75_started_partial"
   ],
   "note": "Proved: a started task has only times of a slightly wider form (fields that int() reads, anything after a third ':', a final line end, repeated units); proper times start when the account is not enabled, and with the account if every sync timer has an instant (C75_account_starts_partial). Refuted: '9:30:00:xyz' starts; run_daily takes '25:00'; the bad time is noticed only after process_initialize has run and the account is set up."
  },
  {
   "property": "C76",
   "status": "partial",
   "theorems": [
    "C76_added_refuted",
    "C76_forever_refuted",
    "C76_new_class_refuted",
    "C76_other_classes_partial",
    "C76_refuted",
    "C76_register_only_partial",
    "C76_registered_partial",
    "C76_unregister_only_partial"
   ],
   "note": "Proved when the callbacks change only other classes that exist already (C76_other_classes_partial). If they only unregister, the delivery ends and calls a subsequence (C76_unregister_only_partial); if they only register, a delivery that returns misses nobody (C76_register_only_partial); in all cases only callbacks registered at that moment are called. Refuted: a callback that unregisters itself makes emit skip the next one; a callback registered meanwhile is called in the same delivery, for ever if it registers itself; registering for a new event class ends the delivery with RuntimeError and the later callbacks are not called."
  },
  {
   "property": "C77",
   "status": "partial",
   "theorems": [
    "C77_bad_period",
    "C77_bad_period_call",
    "C77_gate_refuted",
    "C77_refuted",
    "C77_rejected_partial",
    "C77_returned_partial"
   ],
   "note": "The first part is proved (C77_returned_partial). The second is proved for calls outside process_initialize and for arguments that make no sense (C77_bad_period_call: ValueError for a period without two bounds). Refuted for later failures: without account_no the call raises InvalidParam, but its options are in force and the account counts as enabled; when the gate's set-up fails, the new account object is current as well."
  },
  {
   "property": "C78",
   "status": "partial",
   "theorems": [
    "C78_last_call_partial",
    "C78_refuted"
   ],
   "note": "Proved instead: the options in force are exactly those of the last call whose arguments make sense (C78_last_call_partial), so the property holds for strategies that give all options in one call. Refuted: a second call replaces the whole dictionary, so a market_period or use_account=False set before is forgotten."
  },
  {
   "property": "C79",
   "status": "partial",
   "theorems": [
    "C79_own_lines_partial",
    "C79_short_refuted",
    "C79_strict_refuted"
   ],
   "note": "Refuted: a short line, whosever it is, stops reading (C79_short_refuted); with ignore_error_line off a comma in the text of another order's line makes the sync fail (C79_strict_refuted). With bad lines ignored, for files meeting C36's conditions, two histories with the same submitted orders agree after a sync whenever their files differ only in lines about other orders (C79_own_lines_partial)."
  },
  {
   "property": "C80",
   "status": "partial",
   "theorems": [
    "C80_exact_partial",
    "C80_files_partial",
    "C80_own_line_partial",
    "C80_torn_refuted",
    "C80_unsaved_refuted"
   ],
   "note": "Refuted: an order that could not be saved returns None but its line is in the file (C80_unsaved_refuted); after a write that stops half way the next acknowledged order's line is glued to the torn one (C80_torn_refuted). Without torn writes each file is a header and the lines the disk took, in order, and acknowledged orders are among them (C80_files_partial, C80_own_line_partial); when saving works too, they are exactly the acknowledged ones (C80_exact_partial)."
  },
  {
   "property": "C81",
   "status": "partial",
   "theorems": [
    "C81_first_sync_refuted",
    "C81_same_gate",
    "C81_told_partial"
   ],
   "note": "Refuted: the first sync of a process is silent about all it finds, also about a cancel sent by this process before the broker's files existed (C81_first_sync_refuted). With bad lines ignored and C36's condition on the result file, the log after a sync holds exactly the notices owed for the lines that came after the first sync (C81_told_partial); logging does not change the gate's behaviour as modelled elsewhere (C81_same_gate)."
  },
  {
   "property": "C82",
   "status": "partial",
   "theorems": [
    "C82_failed_write_refuted",
    "C82_one_per_instant_partial",
    "C82_twice_refuted",
    "C82_years_partial"
   ],
   "note": "Proved when every write to the order file works (C82_one_per_instant_partial), for an entry within its first generated days (365 by default) whose function does nothing else with orders, when each call is made on the day it is due; C82_years_partial gives the number of orders of every day however long the process runs. Refuted otherwise: an instant's order whose write fails is missing and is not submitted later (C82_failed_write_refuted); on the 365th day (and every 364 days from there) each order is submitted twice (C82_twice_refuted)."
  },
  {
   "property": "C83",
   "status": "partial",
   "theorems": [
    "C83_balance_partial",
    "C83_balance_refuted",
    "C83_stamps_partial",
    "C83_stamps_refuted",
    "C83_sync_one_day_partial",
    "C83_sync_partial",
    "C83_sync_refuted"
   ],
   "note": "Refuted: the date is read again for each file name. A cancel stamped a microsecond before midnight goes to the next day's file (C83_stamps_refuted); a sync can combine results of one day with updates of the next (C83_sync_refuted), or cash of one day with positions of the next (C83_balance_refuted). Proved when the readings that matter fall on one day: C83_stamps_partial, C83_sync_partial, C83_sync_one_day_partial, C83_balance_partial."
  },
  {
   "property": "C84",
   "status": "partial",
   "theorems": [
    "C84_latin1_exact",
    "C84_locale_refuted",
    "C84_same_codec_partial",
    "C84_undecodable_lost",
    "C84_undecodable_refuted",
    "C84_utf8",
    "C84_utf8_all",
    "C84_utf8_exact"
   ],
   "note": "C84_same_codec_partial: for every encoding that keeps '\\n' apart, if the locale and file_encoding both decode what the broker writes, a sync of the bytes equals the sync of the texts (result, orders, relation between byte and text positions); C84_utf8: UTF-8 is such an encoding for all Unicode scalar values. C84_utf8_exact, C84_utf8_all, C84_latin1_exact: the decoders accept exactly UTF-8 (RFC 3629) and Latin-1. Missing and false: the result file is opened without file_encoding, so a different locale garbles the message of a rejection (C84_locale_refuted); with bad lines ignored an undecodable byte loses the other lines of its chunk for good (C84_undecodable_refuted; C84_undecodable_lost is what happens instead)."
  },
  {
   "property": "C85",
   "status": "partial",
   "theorems": [
    "C85_each_order_partial",
    "C85_history_partial",
    "C85_refuted",
    "C85_two_moments_partial"
   ],
   "note": "Proved, if no unfinished line seen is long enough to be taken for a finished one: the sync equals one with the result file of one moment of the run and the update file of a later one (C85_two_moments_partial); such a sync keeps to the histories of C36 and C39, so what they say of later syncs and restarts holds after it (C85_history_partial); each single order is as at one moment (C85_each_order_partial). Refuted for all orders together: the files are read one after the other, so a fill is shown without the rejection of another order that came before it (C85_refuted)."
  },
  {
   "property": "C86",
   "status": "partial",
   "theorems": [
    "C86_model_partial",
    "C86_round_trip_partial",
    "C86_rounding",
    "C86_scheduled_partial",
    "C86_shown_partial",
    "C86_shown_refuted",
    "C86_subsecond_partial",
    "C86_subsecond_refuted",
    "C86_ties"
   ],
   "note": "The rounding used is proved to be that of IEEE 754 (C86_rounding). Proved: whole-second instants are scheduled exactly (C86_scheduled_partial), every millisecond until 2242 is shown exactly (C86_shown_partial), so whole seconds come back (C86_round_trip_partial) and the exact model used by the other properties agrees (C86_model_partial); for other instants the result is the exact one or one millisecond less (C86_subsecond_partial). Refuted: for an instant with a sub-second part rounding can take away one millisecond (C86_subsecond_refuted); from 2242 on datetimes shown are off by microseconds (C86_shown_refuted)."
  },
  {
   "property": "C87",
   "status": "partial",
   "theorems": [
    "C87_exactly_while_up_partial",
    "C87_later_is_later_partial",
    "C87_no_instant_lost_refuted",
    "C87_once_refuted"
   ],
   "note": "Proved: everything a later process calls lies after everything an earlier one called, for any two strategies (C87_later_is_later_partial); over any number of processes in turn, each stopped while asleep, the calls of an entry are exactly its instants at which a process was up, in order, once each (C87_exactly_while_up_partial). Missing, and refuted: instants at which no process was up are never made up for (C87_no_instant_lost_refuted); if the clock was set back between two processes a call is repeated (C87_once_refuted)."
  },
  {
   "property": "C88",
   "status": "partial",
   "theorems": [
    "C88_clock_set_refuted",
    "C88_reading_refuted",
    "C88_wait_refuted",
    "C88_wakes_in_time_partial"
   ],
   "note": "Proved in double precision: with evenly running clocks a message is slept on at most 4 times and each sleep ends within one millisecond of its time plus twice the latency of the machine (C88_wakes_in_time_partial). Missing, and refuted: a wall clock set forward during a sleep makes the message late by as much (C88_clock_set_refuted); the wait is not always exact (C88_wait_refuted), nor is the reading (C88_reading_refuted)."
  },
  {
   "property": "C89",
   "status": "partial",
   "theorems": [
    "C89_bare_fields_refuted"
   ],
   "note": "Refuted for bare fields in general (C89_bare_fields_refuted): two names starting with a quote merge their records, and the first share is reported with the amount of the second. What holds, for fields that are bare without a leading quote or quoted, is C116."
  },
  {
   "property": "C90",
   "status": "partial",
   "theorems": [
    "C90_days_partial",
    "C90_history_refuted",
    "C90_once_refuted"
   ],
   "note": "If callbacks end on the day they were due, every due instant is called once, except those of the days start + i*(EVENT_DAYS_COUNT-1), i>=1, which are called twice (C90_days_partial).  The full statement is refuted by a process with the default settings on its 365th day (C90_once_refuted); and with ENABLE_HISTORY_START and no end date a process ends by itself EVENT_DAYS_COUNT days after its start date (C90_history_refuted)."
  },
  {
   "property": "C91",
   "status": "partial",
   "theorems": [
    "C91_clean_partial",
    "C91_loads_partial",
    "C91_refuted"
   ],
   "note": "Proved: the exact conditions of a start (C112_exact), all that an accepted start changes (C112_started), that the asked-for file is the one loaded (C91_loads_partial, under C57's conditions), that a start refused because of the code file, another task or the log changes nothing (C91_clean_partial), and that no start touches any file but the log, which is only appended to (C112_files).  Refuted: a start refused because of the environment text or the configuration file has already created the log file, and says nothing in it (C91_refuted)."
  },
  {
   "property": "C92",
   "status": "partial",
   "theorems": [
    "C92_everything_partial",
    "C92_named_partial",
    "C92_pid_refuted",
    "C92_refuted"
   ],
   "note": "Proved for all lists of options in all spellings: start_task and stop_task run with the values written last, and are refused without a required option or with a pid that is no integer (C106_start, C106_required, C106_stop, C106_bad_pid); then stop_task with a name signals exactly the active tasks of that name and with --all exactly all of them, on machines whose processes can be read (C92_named_partial, C92_everything_partial). For all token lists: a command that runs is the first token, and each of its options comes from a token; --all only from --a, --al or --all (C106_first, C106_start_from, C106_stop_from). Refuted in full: -V before a command keeps it from running, no command is an AttributeError, a name given with a pid is ignored (C92_refuted, C92_pid_refuted)."
  },
  {
   "property": "C93",
   "status": "partial",
   "theorems": [
    "C93_oversold_refuted",
    "C93_refuted"
   ],
   "note": "Proved: the account with Position objects behaves as the one with position values (C109_same) and a position read anew shows its figures (C109_fresh); what a kept one shows is C119. Refuted in full: after a sync it is out of date, before that it is no copy either, and a strategy that sells what it shows oversells (C93_refuted, C93_oversold_refuted)."
  },
  {
   "property": "C94",
   "status": "partial",
   "theorems": [
    "C94_fixed",
    "C94_on_time_partial",
    "C94_order_partial",
    "C94_refuted",
    "C94_restart_refuted",
    "C94_skipped"
   ],
   "note": "Proved for times that the clock shows: a task is due at the first moment it is shown (C94_on_time_partial), which is not before the start unless that was in a repeated hour, and times and messages have the same order (C94_order_partial). A skipped time runs as much later as the clock jumps (C94_skipped). C94_fixed: with one offset these are MTime's functions. Refuted: skipped times run under another time and out of order (C94_refuted); after a start in a repeated hour tasks are due before it, so they run at once, early by the clock (C94_restart_refuted)."
  },
  {
   "property": "C95",
   "status": "partial",
   "theorems": [
    "C95_again_refuted",
    "C95_bounded_partial",
    "C95_never_missing_partial",
    "C95_overload_refuted",
    "C95_synced_partial",
    "C95_tasks_partial"
   ],
   "note": "C95_tasks_partial and C95_synced_partial: in a process without and with an account, as long as the clock stays within the events first generated (cf_count - 1 days), every call starts at most the delay and one round of all tasks late, if the work fits, that is, if in every stretch of time the calls due take no longer than the stretch. C118_fits gives a test for that. C95_demo meets the hypotheses. C95_never_missing_partial: then at every reading of the clock all instants owed more than that delay earlier have been called. Refuted without that condition (C95_overload_refuted): with calls every minute that take two and a half minutes each start is later than the one before, none is dropped. Refuted beyond those days even if the work fits and callbacks end on the day they were due (C95_again_refuted): after the last call of the last day generated the calls of that day are made again, all of them late."
  },
  {
   "property": "C96",
   "status": "partial",
   "theorems": [
    "C96_books_partial",
    "C96_kept",
    "C96_refuted"
   ],
   "note": "Refuted (C96_refuted): an order filled one day is in the books of account and gate on the next; in fact no order is ever forgotten while the process runs (C96_kept). What holds: the books have at most as many entries as order() was called (C96_books_partial). Missing: nothing bounds the books by anything else than the orders placed. The scheduler's memory is C104."
  },
  {
   "property": "C97",
   "status": "partial",
   "theorems": [
    "C97_always_partial",
    "C97_shown_partial",
    "C97_symbol_refuted",
    "C97_twice_refuted",
    "C97_zero_refuted"
   ],
   "note": "C97_shown_partial: for files with the columns needed, numbers in them, no two held records of one share and no figure of 0 in the cash record, the strategy sees exactly the cash figures of the last record of the account without exchange and exactly one position per held record of the account, in file order. C97_always_partial drops the last two conditions: a stated cash figure of 0 leaves the one shown before, and of several records of one share the last is shown, in the place of the first. That a sync takes effect as a whole or not at all is C122. Refuted without these conditions: an available cash of 0 keeps the old figure (C97_zero_refuted); of two records of one share only the last is shown (C97_twice_refuted); a record without symbol hides the positions behind it (C97_symbol_refuted)."
  },
  {
   "property": "C98",
   "status": "partial",
   "theorems": [
    "C98_closeable_partial",
    "C98_old_file_refuted",
    "C98_unsaved_refuted",
    "C98_within_partial"
   ],
   "note": "C98_within_partial and C98_closeable_partial: true, and the closeable amount is never more than can really be sold, in all histories in which every position file read already knows the orders sent before it is read and no order that returned None is in the order file. Refuted without the first condition (C98_old_file_refuted: a sync right after the order reads the file written before it, and the same shares are closeable again) and without the second (C98_unsaved_refuted: saving the order fails after its line is written, so order returns None and the shares stay closeable)."
  },
  {
   "property": "C99",
   "status": "partial",
   "theorems": [
    "C99_ends_partial",
    "C99_ends_refuted",
    "C99_silent"
   ],
   "note": "C99_ends_partial: a process with an end date and something to run can always go on until it has ended, and with the clock beyond some instant makes only boundedly many steps, whatever its callbacks do short of queueing more messages; that it then owes nothing is C105_all_done. Without something to run this is false (C99_ends_refuted, C99_silent): a process that scheduled nothing, or whose events all lie before its start, is never woken, so the check for an empty queue is never made and the process stays for ever."
  },
  {
   "property": "C100",
   "status": "proved",
   "theorems": [
    "C100_alone",
    "C100_restart"
   ],
   "note": "C100_alone, C100_restart: for every interleaving and every disk, leaving out the calls of all other tasks (and putting anything in the order and cancel files) changes nothing of what a task is told, of its account, its gate or its save files. Tasks are assumed to have different save files (C71, C72)."
  },
  {
   "property": "C101",
   "status": "partial",
   "theorems": [
    "C101_files_partial",
    "C101_lines",
    "C101_torn_refuted"
   ],
   "note": "C101_files_partial: when no write stops half way, the order file and the cancel file of every date are merges of what each task writes alone, one header and the lines of each task in its order; C101_lines: so every line a task writes alone is a line of the shared file. For a task whose own writes are whole this is false if another task is cut off within a line (C101_torn_refuted): the next order, of another task, is glued to the torn line and acknowledged."
  },
  {
   "property": "C102",
   "status": "partial",
   "theorems": [
    "C102_setups_bound_partial",
    "C102_setups_refuted"
   ],
   "note": "Refuted (C102_setups_refuted): every set-up wraps the wrapped function again. What holds: after n set-ups at most (max_attempts+1)^n calls are made (C102_setups_bound_partial)."
  },
  {
   "property": "C103",
   "status": "proved",
   "theorems": [
    "C103_exclusive"
   ],
   "note": "C103_exclusive, for every execution of the writers' steps from a state in which nobody writes."
  },
  {
   "property": "C104",
   "status": "proved",
   "theorems": [
    "C104_queue",
    "C104_scheduler"
   ],
   "note": "C104_scheduler for every execution of a started process; C104_queue: if nothing else is put on the loop these are all messages."
  },
  {
   "property": "C105",
   "status": "proved",
   "theorems": [
    "C105_all_done",
    "C105_bounded_done",
    "C105_live",
    "C105_reason",
    "C105_returns"
   ],
   "note": "C105_reason: for every execution of the loop. C105_returns: once one of the reasons has happened, an idle loop returns within three steps of its own and calls nothing more. C105_all_done: a process that ended although nobody told it to and no callback failed has no event left in any source, at any date (if none of its steps goes on for ever, which with an end date needs no condition: C105_bounded_done). C105_live: a live process with something to run ends only if told to or if a callback failed."
  },
  {
   "property": "C106",
   "status": "proved",
   "theorems": [
    "C106_bad_pid",
    "C106_first",
    "C106_help",
    "C106_required",
    "C106_same",
    "C106_start",
    "C106_start_from",
    "C106_stop",
    "C106_stop_from",
    "C106_tasks",
    "C106_unknown",
    "C106_version"
   ],
   "note": "C106_start, C106_required, C106_stop, C106_bad_pid for lists of options; C106_first, C106_start_from, C106_stop_from for all token lists; C106_tasks for get_tasks; C106_unknown: unknown options are refused; C106_version: with the version option first nothing runs; C106_help: asking for help runs nothing; C106_same: the parser of C47 is the same one."
  },
  {
   "property": "C107",
   "status": "proved",
   "theorems": [
    "C107_books",
    "C107_never_lost",
    "C107_others_untouched"
   ],
   "note": "C107_never_lost over any history of calls; C107_others_untouched; C107_books: the books of running strategies meet their hypothesis."
  },
  {
   "property": "C108",
   "status": "proved",
   "theorems": [
    "C108_none_after_end",
    "C108_notices"
   ],
   "note": "C108_notices for every history; C108_none_after_end. Whether a second end is told is C66."
  },
  {
   "property": "C109",
   "status": "proved",
   "theorems": [
    "C109_fresh",
    "C109_same"
   ],
   "note": "C109_fresh; C109_same: the account with shared Position objects is the one of MAccount. What a kept object shows later is C93."
  },
  {
   "property": "C110",
   "status": "proved",
   "theorems": [
    "C110_names"
   ],
   "note": "C110_names."
  },
  {
   "property": "C111",
   "status": "proved",
   "theorems": [
    "C111_nothing_changes",
    "C111_schedule_is_calls"
   ],
   "note": "C111_schedule_is_calls, C111_nothing_changes."
  },
  {
   "property": "C112",
   "status": "proved",
   "theorems": [
    "C112_exact",
    "C112_files",
    "C112_settings",
    "C112_started",
    "C112_why"
   ],
   "note": "C112_exact (equivalence), C112_started, C112_files, C112_settings; C112_why: which error a refused name gives. What a refused start leaves behind is C91."
  },
  {
   "property": "C113",
   "status": "partial",
   "theorems": [
    "C113_last_partial",
    "C113_number_partial",
    "C113_refuted"
   ],
   "note": "C113_last_partial: a number other than 0 is shown; C113_number_partial: without blanks a number is always shown. What is shown exactly is C123. False in general (C113_refuted): a blank figure is shown as nan, and stays when the cash given afterwards is 0."
  },
  {
   "property": "C114",
   "status": "proved",
   "theorems": [
    "C114_nothing_given",
    "C114_once",
    "C114_shown",
    "C114_signalled",
    "C114_unreadable"
   ],
   "note": "C114_signalled, C114_once, C114_nothing_given, C114_shown and C114_unreadable, on a process table that does not change meanwhile. C114_demo: a task, its shell, an unreadable process and a bystander."
  },
  {
   "property": "C115",
   "status": "proved",
   "theorems": [
    "C115_header_first",
    "C115_no_more_headers"
   ],
   "note": "C115_header_first and C115_no_more_headers, where appending is atomic (POSIX). That a new file has only one header is C34."
  },
  {
   "property": "C116",
   "status": "proved",
   "theorems": [
    "C116_blank_lines",
    "C116_file",
    "C116_open_quote",
    "C116_roundtrip",
    "C116_sync_unquoted",
    "C116_unquoted"
   ],
   "note": "For pandas' tokenizer as modelled in PyCsv: C116_roundtrip, C116_file, C116_blank_lines, C116_open_quote; on files without quotes the reader is the one of C44 (C116_unquoted, C116_sync_unquoted)."
  },
  {
   "property": "C117",
   "status": "proved",
   "theorems": [
    "C117_same_day",
    "C117_windows"
   ],
   "note": "C117_windows for every execution of a started process without an end date, C117_same_day under the condition named."
  },
  {
   "property": "C118",
   "status": "proved",
   "theorems": [
    "C118_caught_up",
    "C118_fits",
    "C118_waits"
   ],
   "note": "C118_waits for any handler, C118_caught_up for task processes within the days generated at start-up; C118_fits: the work fits into all stretches of time if it fits into a common period."
  },
  {
   "property": "C119",
   "status": "proved",
   "theorems": [
    "C119_defined",
    "C119_frozen",
    "C119_held",
    "C119_short"
   ],
   "note": "C119_held (C119_defined: the amounts it speaks of exist for every history), C119_frozen, C119_short, for every state reached by calls of the strategy and the scheduler."
  },
  {
   "property": "C120",
   "status": "proved",
   "theorems": [
    "C120_accepted",
    "C120_rejected"
   ],
   "note": "C120_accepted and C120_rejected."
  },
  {
   "property": "C121",
   "status": "proved",
   "theorems": [
    "C121_attempts",
    "C121_raised",
    "C121_time_out",
    "C121_written"
   ],
   "note": "C121_written, C121_time_out and C121_raised, for any clock; C121_attempts: how often the lock is tried. How long the wait can last is C69."
  },
  {
   "property": "C122",
   "status": "proved",
   "theorems": [
    "C122_accepted",
    "C122_cash",
    "C122_whole",
    "C122_written"
   ],
   "note": "C122_whole for the account, C122_cash for the record used, C122_accepted for files without quotes, C122_written for written files with quoted fields (and what is read of them)."
  },
  {
   "property": "C123",
   "status": "proved",
   "theorems": [
    "C123_blank",
    "C123_exact",
    "C123_same",
    "C123_unique"
   ],
   "note": "C123_exact and C123_unique; C123_blank: a blank enabledBalance in the account's last record makes the available and the locked cash nan; C123_same: without blanks this is the account of C97."
  },
  {
   "property": "C124",
   "status": "proved",
   "theorems": [
    "C124_reading",
    "C124_sleeps_on",
    "C124_wait"
   ],
   "note": "C124_reading, C124_wait, C124_sleeps_on, with the doubles of PyFloat. The number of sleeps and their latency is C88."
  },
  {
   "property": "C125",
   "status": "proved",
   "theorems": [
    "C125_all",
    "C125_calls",
    "C125_count",
    "C125_returns",
    "C125_schedule"
   ],
   "note": "C125_calls for every state, C125_all for ended processes (C125_returns: none of their steps goes on for ever), C125_count for whole days. The strategy test of the repository, tests/strategies/schedule.py, is an instance (C125_schedule)."
  },
  {
   "property": "C126",
   "status": "proved",
   "theorems": [
    "C126_else",
    "C126_exact",
    "C126_int",
    "C126_one",
    "C126_started",
    "C126_starts"
   ],
   "note": "C126_exact and C126_else for single texts, C126_int for int(), C126_started and C126_starts for processes (live mode, at least eight days generated at a time; decimal digits of other scripts, which int() also reads, are left out)."
  },
  {
   "property": "C127",
   "status": "proved",
   "theorems": [
    "C127_dicts",
    "C127_raises",
    "C127_returns"
   ],
   "note": "C127_returns and C127_raises are equivalences; C127_dicts: for lists of dicts this is the model of C24."
  },
  {
   "property": "C128",
   "status": "partial",
   "theorems": [
    "C128_alive",
    "C128_asleep",
    "C128_ends_refuted",
    "C128_never_again",
    "C128_never_early",
    "C128_stopped",
    "C128_untold",
    "C128_woken"
   ],
   "note": "C128_ends_refuted: the witness sleeps with a due message. C128_asleep, C128_never_again and C128_untold say for all executions what happens instead; C128_never_early, C128_woken and C128_stopped what is left. That pyuv prints an error leaving a callback and goes on is assumed; SystemExit (which ends the process) is left out."
  },
  {
   "property": "C129",
   "status": "proved",
   "theorems": [
    "C129_error",
    "C129_more",
    "C129_periods",
    "C129_plain",
    "C129_read",
    "C129_time",
    "C129_time_error",
    "C129_unique"
   ],
   "note": "C129_read, C129_error and C129_unique for parse_dt, C129_time and C129_time_error for parse_time, against _strptime's regular expression with backtracking (the first way to match). C129_more, C129_plain and C129_periods relate it to the simpler models used elsewhere. Which characters are decimal digits beyond ASCII is a parameter."
  },
  {
   "property": "C130",
   "status": "proved",
   "theorems": [
    "C130_one_outcome",
    "C130_one_result",
    "C130_result_file",
    "C130_sync",
    "C130_update",
    "C130_update_file"
   ],
   "note": "C130_update for single lines, C130_update_file and C130_result_file for files, C130_sync for a sync, C130_one_outcome and C130_one_result: the specification leaves nothing open. Orders are compared by id."
  },
  {
   "property": "C131",
   "status": "partial",
   "theorems": [
    "C131_error",
    "C131_full_partial",
    "C131_hour_partial",
    "C131_hour_refuted",
    "C131_shown_partial",
    "C131_sound"
   ],
   "note": "C131_full_partial and C131_hour_partial; C131_shown_partial for the line as a whole (dates from year 1000). Refuted for one-digit hours below 3 (C131_hour_refuted). C131_sound and C131_error for all other texts."
  },
  {
   "property": "C132",
   "status": "partial",
   "theorems": [
    "C132_again",
    "C132_error",
    "C132_figure_partial",
    "C132_figure_refuted",
    "C132_halves_refuted",
    "C132_line_partial",
    "C132_locked_partial",
    "C132_near_partial",
    "C132_nearest_refuted",
    "C132_plain_partial",
    "C132_reads",
    "C132_takes",
    "C132_units"
   ],
   "note": "C132_reads, _takes, _error: the texts. C132_figure_partial, _plain_partial, _locked_partial, _line_partial: figures with at most that many decimals, below 2^39 (2^37 for the locked cash); C132_near_partial bounds the error for all others; C132_units and C132_again: the units kept in the model are those of the doubles. Refuted beyond: C132_figure_refuted (1000000000000.0003), C132_nearest_refuted, C132_halves_refuted (0.0005 becomes 0.001, 0.0055 becomes 0.005)."
  },
  {
   "property": "C133",
   "status": "proved",
   "theorems": [
    "C133_clock",
    "C133_int",
    "C133_relative",
    "C133_same"
   ],
   "note": "C133_int, C133_clock, C133_relative; C133_same ties PyStr.py_int, which takes ASCII digits only, to the int() of C133."
  },
  {
   "property": "C134",
   "status": "partial",
   "theorems": [
    "C134_again",
    "C134_finite",
    "C134_objects",
    "C134_quiet_partial",
    "C134_refuted",
    "C134_text"
   ],
   "note": "C134_refuted: the full claim is false. C134_again: the notices repeated at every further sync, exactly. C134_objects: which orders get a new object. C134_quiet_partial: nothing changes without nan. C134_text: which texts are nan. C134_finite: agreement with the model of MAccount.v for finite figures."
  },
  {
   "property": "C135",
   "status": "partial",
   "theorems": [
    "C135_lines",
    "C135_lone_refuted",
    "C135_same_partial",
    "C135_torn_refuted",
    "C135_windows_partial"
   ],
   "note": "C135_lines: which pieces readline() takes. C135_same_partial: files without a lone '\\r' are read as the model of the other properties reads them. C135_windows_partial: '\\r\\n' instead of '\\n' makes no difference. Refuted beyond: C135_lone_refuted (a message with '\\r'), C135_torn_refuted (every file whose read position is between '\\r' and '\\n')."
  },
  {
   "property": "C136",
   "status": "partial",
   "theorems": [
    "C136_cancel_posix",
    "C136_posix_partial",
    "C136_rows",
    "C136_windows_partial",
    "C136_windows_refuted"
   ],
   "note": "C136_rows: every text has one list of rows. C136_posix_partial, C136_cancel_posix: the claim on POSIX. C136_windows_partial: on Windows every row is followed by an empty one, and without these it is the table. C136_windows_refuted: the claim is false on Windows."
  },
  {
   "property": "C137",
   "status": "proved",
   "theorems": [
    "C137_at_rest",
    "C137_goes_on",
    "C137_synced"
   ],
   "note": "C137_at_rest for the calls, C137_synced for the syncs, C137_goes_on for the end. These are C60, C62 and C105 made exact and without their condition that event generation has not hung, which C11_live_process_partial provides for EVENT_DAYS_COUNT >= 8 and dates not read before the start. Beyond the days generated at start-up: C90, C117."
  },
  {
   "property": "C138",
   "status": "proved",
   "theorems": [
    "C138_asleep",
    "C138_function_sees",
    "C138_portfolio",
    "C138_portfolio_asleep"
   ],
   "note": "C138_function_sees and C138_asleep: composition of C62 (loop) and C68 (gate and account) over the histories of SFresh.traded; C138_portfolio and C138_portfolio_asleep likewise for C30 (any gate). Files outside the conditions of C36: see C36, C37, C40, C79."
  },
  {
   "property": "C139",
   "status": "partial",
   "theorems": [
    "C139_again",
    "C139_args",
    "C139_cancel_first",
    "C139_cancels",
    "C139_cancels_all_refuted",
    "C139_day",
    "C139_no_account",
    "C139_order_then_cancel",
    "C139_rounds",
    "C139_rows"
   ],
   "note": "C139_cancels (both functions, orders new or open), C139_rows (rows of the cancel file), C139_again (a second run before the next sync repeats the cancels), C139_order_then_cancel, C139_day and C139_rounds (whole days with syncs in between), C139_cancel_first (do_cancel before the first do_order ends demo_order.py with a KeyError), C139_no_account. Refuted by C139_cancels_all_refuted for partly filled orders (status filling): the examples leave them trading."
  },
  {
   "property": "C140",
   "status": "proved",
   "theorems": [
    "C140_free",
    "C140_loads",
    "C140_second",
    "C140_shown",
    "C140_started",
    "C140_stopped"
   ],
   "note": "C140_started, C140_loads (the file that was typed), C140_shown (listing, in the order of the process table), C140_stopped, C140_free (exactly when the name is free), C140_second (the second start leaves everything as it was). Without the assumption on the other tasks see C47, C48, C49, C73."
  },
  {
   "property": "C141",
   "status": "partial",
   "theorems": [
    "C141_after_lost",
    "C141_all_partial",
    "C141_all_refuted",
    "C141_blocked",
    "C141_gone",
    "C141_listing",
    "C141_shown",
    "C141_start",
    "C141_start_refuted",
    "C141_steady",
    "C141_stop",
    "C141_turns"
   ],
   "note": "Refuted (C141_all_refuted, C141_start_refuted): a task that ends between being listed and its turn ends the command with NoSuchProcess; the tasks after it are neither signalled nor shown, and an unrelated start fails. Proved for all answers: which processes are listed (C141_listing), which process ends the command at once (C141_blocked), that processes gone before they are looked at do not matter (C141_gone), exactly what stop_task, get_tasks and the check before a start do, up to the first error (C141_stop, C141_turns, C141_shown, C141_start, C141_after_lost), that --all is complete if no signal fails (C141_all_partial), and agreement with the model of a process table that stands still (C141_steady)."
  },
  {
   "property": "C142",
   "status": "partial",
   "theorems": [
    "C142_cancel",
    "C142_kept",
    "C142_restart_refuted",
    "C142_shown_partial"
   ],
   "note": "Refuted (C142_restart_refuted): after a restart, until a sync has succeeded, every acknowledged order is missing from what the strategy sees, and cancelling it does nothing. Proved for all lives: the row stays in the order file and the gate knows the order at every later time and after a restart (C142_kept); any sync that succeeds shows the order as asked for, with what the broker's lines say, under the conditions of C36 on the files (C142_shown_partial); after it a cancel puts the order's row in the cancel file (C142_cancel)."
  },
  {
   "property": "C143",
   "status": "proved",
   "theorems": [
    "C143_exact",
    "C143_minutes",
    "C143_no_account",
    "C143_own",
    "C143_sold_once"
   ],
   "note": "For the README's code as written (MReadme, README.md:72-86): C143_exact, C143_own (each order placed is cancelled in the same run), C143_minutes (n runs, n buys, n*(n+1)/2 cancels of own orders), C143_sold_once, C143_no_account."
  },
  {
   "property": "C144",
   "status": "partial",
   "theorems": [
    "C144_documented_refuted",
    "C144_examples_refuted",
    "C144_folio",
    "C144_loop_refuted",
    "C144_orders",
    "C144_placed",
    "C144_positions_partial",
    "C144_read_only"
   ],
   "note": "Refuted: the documented attributes code and locked_amount cannot be read of any position (C144_documented_refuted); the README's loop over get_orders() raises at the first order and cancels nothing (C144_loop_refuted); the examples demo_sync and demo_order_minute read a portfolio attribute that does not exist, so their process_initialize fails (C144_examples_refuted). Proved for all states: all sixteen attributes of orders and no others (C144_orders), those of an order just placed (C144_placed), the other nine attributes of positions (C144_positions_partial), the portfolio (C144_folio), that none can be assigned to (C144_read_only)."
  },
  {
   "property": "C145",
   "status": "proved",
   "theorems": [
    "C145_day",
    "C145_default",
    "C145_minutes"
   ],
   "note": "C145_day (files of a day that is over), C145_minutes (every_minute, nothing to sell, no position), C145_default (242). Within one run of do_order the date and the state of the disk do not change (`days` in TReadme2)."
  },
  {
   "property": "C146",
   "status": "partial",
   "theorems": [
    "C146_bracket_refuted",
    "C146_hidden",
    "C146_order",
    "C146_position",
    "C146_positions_blind",
    "C146_positions_refuted"
   ],
   "note": "Proved for single orders and positions: C146_order, C146_hidden, C146_position. Refuted: C146_positions_refuted (with C146_positions_blind: only the codes are shown; _UserObject.__repr__ is inherited by no class), C146_bracket_refuted (the bracket after UserOrder is closed after the style, and the text never ends with one)."
  },
  {
   "property": "C147",
   "status": "proved",
   "theorems": [
    "C147_asleep",
    "C147_ends",
    "C147_stops",
    "C147_task",
    "C147_told"
   ],
   "note": "C147_stops, C147_told, C147_asleep, C147_ends (loop), C147_task (live task processes). Callbacks are assumed to return; errors below BaseException are C128. That stop_task sends the signal to the tasks meant is C49, C92 and C141."
  },
  {
   "property": "C148",
   "status": "partial",
   "theorems": [
    "C148_attributes",
    "C148_before",
    "C148_default_refuted",
    "C148_initialize",
    "C148_instance",
    "C148_none_refuted",
    "C148_own",
    "C148_read_only",
    "C148_task"
   ],
   "note": "Proved: C148_attributes, C148_read_only, C148_own, C148_initialize, C148_before, C148_task, C148_instance. Refuted: after a set_options that raised for lack of account_no and was caught, portfolio is None (C148_none_refuted); use_account is True unless it is given, although the README says False (C148_default_refuted). The strategy is assumed not to touch the private attribute _UserContext__ctx. strategy_dt of tasks with fractions of a second is C08."
  },
  {
   "property": "C149",
   "status": "partial",
   "theorems": [
    "C149_account_refuted",
    "C149_interval_refuted",
    "C149_on_exception",
    "C149_orders",
    "C149_returns",
    "C149_settings",
    "C149_truth"
   ],
   "note": "Proved: C149_settings, C149_returns, C149_orders, C149_truth, C149_on_exception. Refuted: a sync_retry_kwargs that gives only max_attempts makes the wait 0.1 and not the documented 0.15 (C149_interval_refuted); an account number that is empty passes the set-up, only its orders are refused (C149_account_refuted). That the wrappers of several set-ups multiply is C102."
  },
  {
   "property": "C150",
   "status": "partial",
   "theorems": [
    "C150_agrees",
    "C150_first",
    "C150_money",
    "C150_orders_partial",
    "C150_raised_refuted",
    "C150_unsynced_refuted",
    "C150_without"
   ],
   "note": "Proved: C150_agrees, C150_first, C150_without (any gate), C150_money (AnXin gate), C150_orders_partial (under the conditions of C68 on the broker's files). Refuted: set_options returns although the first syncs failed or are switched off, and the account shows nothing (C150_unsynced_refuted); a call that raises enables the account or replaces it by an empty one (C150_raised_refuted)."
  },
  {
   "property": "C151",
   "status": "partial",
   "theorems": [
    "C151_at_rest",
    "C151_calls",
    "C151_late",
    "C151_minute",
    "C151_soon",
    "C151_soon_called_refuted"
   ],
   "note": "Proved: C151_calls, C151_soon, C151_late, C151_at_rest, C151_minute. Refuted: if process_initialize takes longer than the delay the first call comes a day later (C151_soon_called_refuted); so does the first order of demo_order_minute.py, whose delay is 0, unless the clock shows a whole second (C151_minute)."
  },
  {
   "property": "C152",
   "status": "partial",
   "theorems": [
    "C152_fields",
    "C152_order",
    "C152_read_partial",
    "C152_read_refuted",
    "C152_sorted",
    "C152_sorted_all",
    "C152_stamp",
    "C152_traceback"
   ],
   "note": "Proved for entries on one line: C152_read_partial, C152_sorted, C152_sorted_all, C152_stamp, C152_fields, C152_order. Refuted for messages with line breaks (C152_read_refuted): one entry looks like two; an entry with a traceback takes lines without time and level (C152_traceback)."
  },
  {
   "property": "C153",
   "status": "partial",
   "theorems": [
    "C153_asks",
    "C153_before",
    "C153_fields",
    "C153_last_partial",
    "C153_last_refuted",
    "C153_mixed_refuted",
    "C153_reach",
    "C153_read",
    "C153_shown",
    "C153_sorted",
    "C153_stale"
   ],
   "note": "C153_last_partial (while the earlier contexts can still tell their time), C153_before, C153_reach, C153_asks, C153_read, C153_fields, C153_shown, C153_sorted. Refuted without that condition (C153_last_refuted): filters of earlier contexts stay, and one that raises fails every later log call (C153_stale); a Context with a loop does not raise. Lines with and without the strategy's time do not sort together (C153_mixed_refuted)."
  },
  {
   "property": "C154",
   "status": "partial",
   "theorems": [
    "C154_author_refuted",
    "C154_comments_refuted",
    "C154_info_partial",
    "C154_no_file",
    "C154_none",
    "C154_requirements",
    "C154_version",
    "C154_version_bad"
   ],
   "note": "C154_requirements (both directions), C154_no_file, C154_version, C154_version_bad, C154_info_partial. Refuted for the author (C154_author_refuted): setup.py line 42 ends in a comma, so author and maintainer are tuples. Comments in requirements.txt are taken for requirements (C154_comments_refuted); the file has none."
  },
  {
   "property": "C155",
   "status": "proved",
   "theorems": [
    "C155_kept",
    "C155_picked",
    "C155_read",
    "C155_text"
   ],
   "note": "C155_text, C155_kept, C155_picked, C155_read. For loggers whose own levels are not set (C74 has those) and records written in one piece."
  },
  {
   "property": "C156",
   "status": "partial",
   "theorems": [
    "C156_defaults_partial",
    "C156_same_calls",
    "C156_use_refuted"
   ],
   "note": "C156_defaults_partial, C156_same_calls; C156_use_refuted: use_account is on unless it is switched off, where the README says it is off by default. runtime_dir and the trade gate's own options are not part of this."
  },
  {
   "property": "C157",
   "status": "partial",
   "theorems": [
    "C157_agrees",
    "C157_effects",
    "C157_taken",
    "C157_taken_refuted",
    "C157_told_partial",
    "C157_told_refuted"
   ],
   "note": "C157_effects, C157_agrees, C157_taken (exactly what is taken from a position); C157_told_partial: all but partial fills is told alike if no status is changed; C157_told_refuted: a gate that notes the status in the object keeps the end of the order from being told; C157_taken_refuted: a changed amount is what is taken from the position."
  },
  {
   "property": "C158",
   "status": "partial",
   "theorems": [
    "C158_own",
    "C158_shown_partial",
    "C158_shown_refuted",
    "C158_stopped_refuted"
   ],
   "note": "C158_own (with psutil's comparison of starting times); C158_shown_partial: for processes still there when read again; C158_shown_refuted: get_tasks can show another process under the number of a task that ended; C158_stopped_refuted: a number given to another program makes stop_task --name fail before it stops the task asked for."
  },
  {
   "property": "C159",
   "status": "partial",
   "theorems": [
    "C159_account",
    "C159_ascii",
    "C159_ascii_cancel",
    "C159_cancel",
    "C159_changed_refuted",
    "C159_encodings",
    "C159_mixed",
    "C159_order",
    "C159_read_partial"
   ],
   "note": "C159_order, C159_cancel, C159_account, C159_ascii, C159_ascii_cancel, C159_mixed, C159_encodings; C159_read_partial: files written in one encoding; C159_changed_refuted: after a change of file_encoding during the day a file with non-ASCII characters can no longer be read."
  },
  {
   "property": "C160",
   "status": "partial",
   "theorems": [
    "C160_after",
    "C160_cut",
    "C160_fails",
    "C160_gate",
    "C160_grammar",
    "C160_hex",
    "C160_numbers",
    "C160_saved_partial",
    "C160_strings",
    "C160_surrogates_refuted",
    "C160_unicode"
   ],
   "note": "C160_saved_partial (texts without a high surrogate before a low one, which C160_unicode shows for all decoded texts; the printing and reading of floats is a parameter with its round trip assumed), C160_fails, C160_cut, C160_after, C160_numbers, C160_hex, C160_strings, C160_grammar, C160_gate; C160_surrogates_refuted: two surrogates side by side come back as one character."
  },
  {
   "property": "C161",
   "status": "partial",
   "theorems": [
    "C161_ascii",
    "C161_encoding_refuted",
    "C161_gate",
    "C161_not_utf8",
    "C161_utf8"
   ],
   "note": "C161_utf8, C161_ascii, C161_not_utf8, C161_gate; C161_encoding_refuted: with file_encoding set to the encoding of the broker's files the balance should be read as written; it is not, as pd.read_csv is called without an encoding."
  }
 ]
}