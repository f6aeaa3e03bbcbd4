{"id": "C01", "title": "Event queue is a faithful priority queue", "statement": "For any sequence of push/pop/top calls on the event queue, every pop returns a stored item whose sort key (time ascending, then priority descending, then creation order) is minimal among the items currently stored, top returns what the next pop would return without removing it, pop on an empty queue raises QueueEmptyError and changes nothing, and no item is ever lost or duplicated.", "quantifier": "all finite sequences of queue operations (hence all lock-serialised thread interleavings), all sort keys", "why_tests_cant": "the heap shape depends on the whole operation history; tests only sample a few short histories", "anchors": ["jqtrade/scheduler/queue.py: PriorityQueue.push, PriorityQueue.pop, PriorityQueue.top, ThreadSafeQueue", "jqtrade/scheduler/message.py: Message.sort_key"]}
{"id": "C02", "title": "No callback runs before its scheduled time", "statement": "The event loop never invokes the callback of a message while the wall clock read for that dispatch is earlier than the message's scheduled millisecond time.", "quantifier": "all executions of the loop: every wake-up order, every clock behaviour (including jumps), every set of messages pushed before or during the run", "why_tests_cant": "depends on every schedule of timer/async wake-ups and every clock reading", "anchors": ["jqtrade/scheduler/loop.py: EventLoop.check_queue, EventLoop.handle_message"]}
{"id": "C03", "title": "Tasks are dispatched in scheduled order", "statement": "When all event sources yield non-decreasing times, the sequence of events dispatched by a strategy process is sorted by scheduled time, and among events of the same time the higher-priority ones come first (account sync before every_minute before plain daily tasks), whatever the wake-up order and the clock readings.", "quantifier": "all sets of event sources, all clock readings, all wake-up schedules, all prefixes of execution", "why_tests_cant": "the merge of several lazily refilled sources through one heap depends on every interleaving of wake-ups with the clock", "anchors": ["jqtrade/scheduler/event_source.py: EventSourceScheduler.schedule", "jqtrade/scheduler/loop.py: EventLoop.check_queue", "jqtrade/scheduler/message.py: Message.sort_key", "jqtrade/scheduler/event.py: EventPriority"]}
{"id": "C04", "title": "Each generated event is dispatched exactly once", "statement": "At every moment of a run, the events already dispatched for a source followed by the ones it still holds are exactly the source's event stream: nothing is skipped, repeated or reordered; if the loop ends because the queue became empty, every event of every bounded source was dispatched exactly once.", "quantifier": "all executions (all clocks, all wake-ups) over all finite families of bounded sources", "why_tests_cant": "loss or duplication would show up only for particular interleavings of peek/get with dispatch", "anchors": ["jqtrade/scheduler/event_source.py: EventSourceScheduler.schedule (callback, push_next_msg), EventSource.get_next_event", "jqtrade/scheduler/loop.py: EventLoop.check_queue"]}
{"id": "C05", "title": "No lost wake-up", "statement": "Whenever the loop is idle, not stopped, and at least one message is queued, a wake-up is outstanding: either a notification is pending, or the timer is armed and no later than the due time of the earliest queued message.", "quantifier": "all reachable loop states under any interleaving of pushes (from any thread), timer firings, notifications, signals and clock readings", "why_tests_cant": "a lost wake-up needs a specific race between a push, the timer restart and the notification", "anchors": ["jqtrade/scheduler/loop.py: EventLoop.push_message, EventLoop.check_queue, EventLoop._notify_loop"]}
{"id": "C06", "title": "A stopped loop dispatches nothing more and reports the failing callback", "statement": "After the loop has been asked to stop (signal, exit checker, empty queue or an exception escaping a callback) no further callback is ever invoked; if a callback raised, run() re-raises exactly the first such exception; if none raised, run() returns normally.", "quantifier": "all executions and all points at which the stop request arrives", "why_tests_cant": "needs every crash point and every schedule after it", "anchors": ["jqtrade/scheduler/loop.py: EventLoop.stop, EventLoop.handle_message, EventLoop.run, EventLoop.check_queue"]}
{"id": "C07", "title": "SIGTERM stops the strategy after the current task", "statement": "When SIGTERM/SIGINT arrives while a task callback is running, the process finishes that callback and starts no other one (README: the process handles the signal after finishing the current transaction).", "quantifier": "all arrival points of the signal and all queue contents", "why_tests_cant": "depends on the arrival point relative to a backlog of due messages", "anchors": ["jqtrade/scheduler/loop.py: EventLoop.check_queue, EventLoop.handle_signal, EventLoop.register_signal_callback"]}
{"id": "C08", "title": "strategy_dt is the scheduled time of the running task", "statement": "Inside a task callback context.strategy_dt equals the datetime the task was scheduled for, independent of how late it is dispatched.", "quantifier": "all dispatched messages, all scheduled datetimes, all delays", "why_tests_cant": "ranges over all datetimes (including sub-second market periods) and all delays", "anchors": ["jqtrade/scheduler/loop.py: EventLoop.strategy_dt, EventLoop.handle_message", "jqtrade/common/utils.py: dt_to_milliseconds, milliseconds_to_dt"]}
{"id": "C09", "title": "A bounded event source enumerates exactly the scheduled instants", "statement": "For a source with start and end, successive get_next_event calls yield, day by day and in time order within the day, exactly one event for every (day, task) pair whose instant lies in [start, end], then None forever.", "quantifier": "all task lists, all start/end instants, all numbers of calls", "why_tests_cant": "unbounded combinations of days, expressions and window boundaries", "anchors": ["jqtrade/scheduler/event_source.py: EventSource.gen_events, EventSource.get_next_event, EventSource.add_event, EventSource._get_days"]}
{"id": "C10", "title": "In live mode every daily task fires once per day", "statement": "A live (unbounded) event source yields each task exactly once per calendar day from its start on, for as long as the process runs.", "quantifier": "all task lists, all start instants, all run lengths (including beyond the 365-day generation window)", "why_tests_cant": "needs histories longer than a year", "anchors": ["jqtrade/scheduler/event_source.py: EventSource._get_days, EventSource.gen_events", "jqtrade/scheduler/config.py: SchedulerConfig.EVENT_DAYS_COUNT"]}
{"id": "C11", "title": "Scheduling always terminates", "statement": "Peeking or getting the next event of a source returns (an event or None) in finitely many steps.", "quantifier": "all sources reachable through set_options / run_daily, all start instants", "why_tests_cant": "a hang depends on exact start time or on an empty period list", "anchors": ["jqtrade/scheduler/event_source.py: EventSource.gen_events", "jqtrade/account/account.py: Account._setup_sync_timer", "jqtrade/scheduler/strategy.py: Strategy.schedule"]}
{"id": "C12", "title": "Peek is a pure preview", "statement": "peek_next_event returns exactly what the following get_next_event returns, any number of peeks in between changes nothing observable, and get_next_event removes exactly that event.", "quantifier": "all sources, all call sequences", "why_tests_cant": "depends on lazily regenerated state over all histories", "anchors": ["jqtrade/scheduler/event_source.py: EventSource.peek_next_event, EventSource.get_next_event, EventSource.gen_events"]}
{"id": "C13", "title": "Relative time expressions mean base plus or minus offset", "statement": "A relative expression is accepted exactly when it is 'open' or 'close', optionally followed by one sign and one to three <1-2 digits><h|m|s> groups; it denotes the base instant of that day shifted by the sum of the groups; anything else is rejected with InvalidParam.", "quantifier": "all strings", "why_tests_cant": "infinite input language", "anchors": ["jqtrade/scheduler/event_source.py: TimeExprParser.parse, TimeExprParser._parse_offset, EventSource.expr_to_time"]}
{"id": "C14", "title": "every_minute covers every minute of the market period", "statement": "A task scheduled with 'every_minute' gets exactly one event per whole minute step start, start+1min, ... <= end of every market period, in order, both ends inclusive (242 per day with the default periods).", "quantifier": "all market periods", "why_tests_cant": "all period boundaries", "anchors": ["jqtrade/scheduler/strategy.py: Strategy.schedule", "jqtrade/scheduler/config.py: SchedulerConfig.MARKET_PERIOD"]}
{"id": "C15", "title": "Scheduling API is closed after process_initialize", "statement": "run_daily and set_options succeed only while process_initialize is executing; afterwards they raise InvalidCall and change neither the schedule nor the options, so the set of scheduled tasks is exactly the run_daily calls made in process_initialize, in order.", "quantifier": "all strategies (call sequences inside and after process_initialize)", "why_tests_cant": "all user programs", "anchors": ["jqtrade/scheduler/strategy.py: Strategy.run_daily, Strategy.set_options, Strategy.setup"]}
{"id": "C16", "title": "Each run_daily entry drives exactly its own function", "statement": "Firing the event of the k-th run_daily entry invokes the function given in that entry exactly once and no other user function, for any number of entries (including the same function scheduled several times).", "quantifier": "all run_daily call lists and all function objects", "why_tests_cant": "all names and multiplicities of scheduled functions", "anchors": ["jqtrade/scheduler/strategy.py: Strategy.schedule, Strategy._get_handle, Strategy._check_handle, Strategy.wrap_user_callback", "jqtrade/scheduler/event.py: create_event_class", "jqtrade/scheduler/bus.py: EventBus.emit"]}
{"id": "C17", "title": "Adding a daily task to an already scheduled source re-schedules it once", "statement": "Calling daily() on a source that is already scheduled returns, retires the outstanding message and leaves exactly one live schedule for the source.", "quantifier": "all already scheduled sources", "why_tests_cant": "the callback list mutates while being iterated; needs an induction over iterations", "anchors": ["jqtrade/scheduler/event_source.py: EventSource.daily, EventSource.on_events_changed, EventSourceScheduler.schedule"]}
{"id": "C18", "title": "Event bus delivery order and unregistration", "statement": "emit calls exactly the callbacks registered for the event's class, once per registration, higher priority first and registration order within a priority; unregister of a callback removes it and leaves every other delivery unchanged.", "quantifier": "all registration/unregistration histories, all priorities", "why_tests_cant": "all histories of register/unregister", "anchors": ["jqtrade/scheduler/bus.py: EventBus.register, EventBus.unregister, EventBus.emit"]}
{"id": "C19", "title": "Account sync keeps running all day, every day", "statement": "Without sync_period the account is synchronised every sync_internal seconds from start-up on, at any time of day, for as long as the process runs; with sync_period, at period start and every sync_internal seconds up to the period end.", "quantifier": "all start instants, intervals, periods and later instants", "why_tests_cant": "all start times of day and multi-day runs", "anchors": ["jqtrade/account/account.py: Account._setup_sync_timer", "jqtrade/account/config.py: AccountConfig.SYNC_INTERNAL, AccountConfig.SYNC_PERIOD"]}
{"id": "C20", "title": "Invalid orders are rejected without effect", "statement": "order() raises InvalidParam for a code that is not <digits>.XSHE/.XSHG, a non-integer or zero amount, a wrong style or side object, and then nothing is sent to the broker and no order is recorded; for all other arguments it reaches the trade gate exactly once.", "quantifier": "all argument tuples and account states", "why_tests_cant": "all strings and amounts", "anchors": ["jqtrade/account/api.py: order, _check_code, _check_amount, _check_style, _check_side"]}
{"id": "C21", "title": "The requested side is the side that is traded", "statement": "An order placed with side='short' is never submitted to the broker as a long order.", "quantifier": "all orders", "why_tests_cant": "needs the end-to-end effect of every order call", "anchors": ["jqtrade/account/api.py: order", "jqtrade/account/account.py: Account.order", "jqtrade/account/trade_gate.py: AnXinDMATradeGate.order"]}
{"id": "C22", "title": "The submitted order line encodes the order", "statement": "For every accepted order the line appended to the order file carries the order id, the account, the broker symbol of the code, trade side 1 for a positive and 2 for a negative amount, the absolute quantity, and the price instruction (P6/P7 for market buy/sell, AT with the limit price twice for limit orders).", "quantifier": "all codes, amounts, styles", "why_tests_cant": "all parameter combinations", "anchors": ["jqtrade/account/trade_gate.py: AnXinDMATradeGate.order", "jqtrade/account/account.py: Account.order"]}
{"id": "C23", "title": "order() return value tells whether the order was submitted", "statement": "If order() returns an id, exactly one line for that id was appended to the order file and get_orders shows it; if it returns None, nothing was submitted and get_orders does not show it.", "quantifier": "all orders, all gate failures at any step", "why_tests_cant": "all failure points inside the gate", "anchors": ["jqtrade/account/account.py: Account.order", "jqtrade/account/trade_gate.py: AnXinDMATradeGate.order, AnXinDMATradeGate._save_orders"]}
{"id": "C24", "title": "Batch submission isolates failures", "statement": "batch_submit_orders returns a list with one entry per request in order; each entry is what order() alone would return for that request in that state, None when it raises; a failing request never prevents later ones, and the call itself never raises.", "quantifier": "all request lists and all per-request failures", "why_tests_cant": "all positions and kinds of failing entries", "anchors": ["jqtrade/account/api.py: batch_submit_orders"]}
{"id": "C25", "title": "Cancel reaches the broker only for known orders", "statement": "cancel_order(id) appends exactly one cancel line for id when the id is a known order and nothing otherwise, never raises because of gate failures, and never changes the recorded orders; batch_cancel_orders does this for each id in order.", "quantifier": "all ids, all account states, all gate failures", "why_tests_cant": "all states and failure points", "anchors": ["jqtrade/account/api.py: cancel_order, batch_cancel_orders", "jqtrade/account/account.py: Account.cancel_order", "jqtrade/account/trade_gate.py: AnXinDMATradeGate.cancel_order"]}
{"id": "C26", "title": "get_orders is the conjunction of its filters", "statement": "get_orders(order_id, code, status) returns exactly the recorded orders that satisfy all the given filters, keyed by order id, and changes nothing.", "quantifier": "all order books and all filter combinations", "why_tests_cant": "all order books", "anchors": ["jqtrade/account/api.py: get_orders"]}
{"id": "C27", "title": "Orders returned by get_orders are snapshots", "statement": "A UserOrder obtained from get_orders keeps all its attribute values forever, whatever orders, cancels and synchronisations happen later.", "quantifier": "all later histories of API calls and broker updates", "why_tests_cant": "aliasing: needs all later histories", "anchors": ["jqtrade/account/api.py: get_orders, UserOrder", "jqtrade/account/account.py: Account.sync_orders, Account.order"]}
{"id": "C28", "title": "After a successful order sync the local book agrees with the broker", "statement": "After sync_orders completes, every order reported by the gate is in the local book with the reported status, filled/cancelled amounts, deal balance, average price, confirmation id (and error message).", "quantifier": "all local books and all gate reports", "why_tests_cant": "all report contents and histories", "anchors": ["jqtrade/account/account.py: Account.sync_orders", "jqtrade/account/order.py: Order.__eq__, Order.load"]}
{"id": "C29", "title": "Order notifications are consistent with status transitions", "statement": "A sync step logs a notification for an order only when its state changed, only if the local order was not already finished, at most one per reported order, and of the kind matching the reported status.", "quantifier": "all pairs of local and remote states, all reports", "why_tests_cant": "all transitions", "anchors": ["jqtrade/account/account.py: Account._notify_changed, Account._notify_deal, Account._notify_confirmed, Account._notify_canceled, Account._notify_rejected"]}
{"id": "C30", "title": "After a balance sync the portfolio equals the broker's report", "statement": "After a successful sync_balance, total value, available cash, locked cash and both position maps are exactly those reported by the gate; a failed sync leaves the previous portfolio unchanged.", "quantifier": "all previous states, all reports, all failure points", "why_tests_cant": "zero balances, malformed entries and failure positions", "anchors": ["jqtrade/account/account.py: Account.sync_balance", "jqtrade/account/portfolio.py: Portfolio"]}
{"id": "C31", "title": "closeable_amount tracks submitted sells and never goes negative", "statement": "Between two balance syncs the closeable amount of a long position equals max(reported available - total quantity of successfully submitted sells of that code, 0); buys, rejected/failed submissions and other codes do not change it; so a strategy that sells at most closeable_amount each time never sells more than was available.", "quantifier": "all sequences of orders between syncs", "why_tests_cant": "all order sequences", "anchors": ["jqtrade/account/position.py: Position.on_order_created", "jqtrade/account/account.py: Account.on_order_created"]}
{"id": "C32", "title": "Portfolio views are faithful", "statement": "portfolio.long_positions/short_positions contain exactly the account's positions; indexing an absent code yields an all-zero position without inserting it; position_value is the sum of the long positions' values.", "quantifier": "all position maps and codes", "why_tests_cant": "all maps", "anchors": ["jqtrade/account/portfolio.py: Portfolio.long_positions, Portfolio.position_value", "jqtrade/account/api.py: UserPositionDict, UserPosition.get_empty_pos"]}
{"id": "C33", "title": "Order ids are unique", "statement": "Two different orders placed by a strategy never share an order id, so an order never overwrites another one in the book.", "quantifier": "all sequences of random numbers", "why_tests_cant": "collision of 32-bit random numbers", "anchors": ["jqtrade/common/utils.py: generate_unique_number", "jqtrade/account/account.py: Account.order"]}
{"id": "C34", "title": "Concurrent writers neither lose nor corrupt order lines", "statement": "When several strategy processes append to the same order file, under every interleaving each completed submission's line appears exactly once and intact, and the file starts with exactly one header line.", "quantifier": "all interleavings of any number of writers", "why_tests_cant": "race windows between open, lock, tell and close", "anchors": ["jqtrade/account/trade_gate.py: AnXinDMATradeGate._write"]}
{"id": "C35", "title": "Security code translation is invertible", "statement": "For every code accepted by order(), the broker symbol written decodes back to the same code, and distinct accepted codes have distinct symbols.", "quantifier": "all accepted codes", "why_tests_cant": "all strings", "anchors": ["jqtrade/account/trade_gate.py: AnXinDMATradeGate._encode_security, AnXinDMATradeGate._decode_security", "jqtrade/account/api.py: _check_code"]}
{"id": "C36", "title": "Incremental reading of the update file equals one-shot reading", "statement": "Reading an order-update file through any number of syncs at arbitrary moments of its growth leaves the same order states as reading the finished file once: each complete line is applied exactly once, in order, and a line caught half-written is applied completely later.", "quantifier": "all files, all chunkings (positions at which a sync sees the file)", "why_tests_cant": "all tear points inside lines", "anchors": ["jqtrade/account/trade_gate.py: AnXinDMATradeGate.sync_orders"]}
{"id": "C37", "title": "An unparsable update line never blocks later lines", "statement": "With ignore_error_line=True a line that cannot be parsed is skipped and all later lines are still applied (README).", "quantifier": "all malformed lines and all files around them", "why_tests_cant": "all shapes of malformed lines", "anchors": ["jqtrade/account/trade_gate.py: AnXinDMATradeGate.sync_orders"]}
{"id": "C38", "title": "A failing update line leaves the order unchanged", "statement": "If an order-update line is skipped because it cannot be parsed, the order it refers to keeps all its previous field values.", "quantifier": "all orders and lines", "why_tests_cant": "failure position within the field list", "anchors": ["jqtrade/account/trade_gate.py: AnXinDMATradeGate._update_order"]}
{"id": "C39", "title": "Restart reconstructs the order states", "statement": "Restarting the process (reload of the saved orders, re-reading both broker files from the beginning) yields the same order states as the process had before, for the same file contents.", "quantifier": "all file contents and all sync histories before the restart", "why_tests_cant": "all interleavings of the two broker files with syncs", "anchors": ["jqtrade/account/trade_gate.py: AnXinDMATradeGate.sync_orders, AnXinDMATradeGate._load_orders"]}
{"id": "C40", "title": "Order updates keep flowing across midnight", "statement": "In a process running over several days every line of the current day's update and result files concerning a known order is eventually applied.", "quantifier": "all file contents of consecutive days", "why_tests_cant": "needs multi-day histories", "anchors": ["jqtrade/account/trade_gate.py: AnXinDMATradeGate.sync_orders, AnXinDMATradeGate._order_update_csv"]}
{"id": "C41", "title": "The saved order book is never torn", "statement": "Whatever the point at which the process is killed during a save, the data file found at restart is a complete snapshot: either the one before or the one after the save.", "quantifier": "all crash points in all save sequences, POSIX and Windows rename semantics", "why_tests_cant": "all crash points", "anchors": ["jqtrade/account/trade_gate.py: AnXinDMATradeGate._save_orders, AnXinDMATradeGate._load_orders"]}
{"id": "C42", "title": "Acknowledged orders survive any crash; recovered orders were really submitted", "statement": "Every order whose id was returned by order() is known again after a restart on the same day, whatever crash happened; every order recovered at restart has its line in the order file; every line in the order file belongs to a recovered order.", "quantifier": "all histories of orders, syncs, crashes at any micro-step and restarts", "why_tests_cant": "all crash points over all histories", "anchors": ["jqtrade/account/trade_gate.py: AnXinDMATradeGate.order, AnXinDMATradeGate._save_orders, AnXinDMATradeGate._load_orders"]}
{"id": "C43", "title": "A failing order does not disable order synchronisation", "statement": "If one order() call fails, later sync_orders calls still work for the other orders.", "quantifier": "all failing orders and later histories", "why_tests_cant": "needs the combination of a failing save with all later syncs", "anchors": ["jqtrade/account/trade_gate.py: AnXinDMATradeGate.order, AnXinDMATradeGate._save_orders, AnXinDMATradeGate.sync_orders"]}
{"id": "C44", "title": "Balance files are read all-or-nothing and only for the own account", "statement": "sync_balance accepts an asset/position file only if it is complete (terminated by the empty record); a file truncated at any point is rejected; the reported positions are exactly the records of the configured account with non-zero quantity, in file order.", "quantifier": "all file contents and truncation points", "why_tests_cant": "all truncation points", "anchors": ["jqtrade/account/trade_gate.py: AnXinDMATradeGate.sync_balance, AnXinDMATradeGate._read_csv"]}
{"id": "C45", "title": "Orders of the current day are recovered after a restart", "statement": "Orders placed today by a task are loaded when the task is restarted on the same day, even when the process had been running since an earlier day.", "quantifier": "all start days and order days", "why_tests_cant": "needs multi-day histories", "anchors": ["jqtrade/account/trade_gate.py: AnXinDMATradeGate.setup, AnXinDMATradeGate._save_orders"]}
{"id": "C46", "title": "Retry makes at most max_attempts+1 calls and returns the first success", "statement": "A function wrapped by the retry helper is called until its first success, at most max_attempts+1 times, the first successful value is returned, the last exception is raised otherwise, and an exception refused by on_exception is raised immediately; between two calls, and only there, it sleeps once.", "quantifier": "all outcome sequences, all max_attempts", "why_tests_cant": "all outcome sequences", "anchors": ["jqtrade/common/utils.py: simple_retry", "jqtrade/account/trade_gate.py: AnXinDMATradeGate.setup"]}
{"id": "C47", "title": "Task information is recovered from the command line", "statement": "For every command line accepted by start_task, parse_task_info returns the name, code path, log path, environment and debug flag that the task was started with.", "quantifier": "all option values and all accepted spellings of the options", "why_tests_cant": "all argument orders and spellings", "anchors": ["jqtrade/scheduler/utils.py: parse_task_info", "jqtrade/__main__.py: main"]}
{"id": "C48", "title": "Two tasks with the same name never run together", "statement": "At no time are two live strategy processes with the same task name both past the start-up check, whatever the interleaving of process starts, checks and exits.", "quantifier": "all interleavings of any number of starts, checks, exits; all process trees", "why_tests_cant": "start-up races", "anchors": ["jqtrade/scheduler/runner.py: _exist_repeated_task, TaskRunner.__init__", "jqtrade/scheduler/utils.py: get_activate_task_process"]}
{"id": "C49", "title": "stop_task signals exactly the selected tasks", "statement": "stop_task signals all active tasks with --all, exactly the active task with the given pid with --pid, exactly the active tasks with the given name with --name, and no other process; SIGKILL if and only if --force.", "quantifier": "all process tables and option combinations", "why_tests_cant": "all process tables", "anchors": ["jqtrade/__main__.py: stop_task"]}
{"id": "C50", "title": "Environment option round trip", "statement": "parse_env applied to 'K1=V1;K2=V2;...' returns exactly the mapping K->V (last value wins), and PYTHONPATH entries are put in front of sys.path in the given order.", "quantifier": "all keys and values", "why_tests_cant": "all strings", "anchors": ["jqtrade/scheduler/utils.py: parse_env", "jqtrade/scheduler/runner.py: TaskRunner.__init__"]}
{"id": "C51", "title": "Custom configuration overrides take effect", "statement": "After loading a custom config file, every documented setting X assigned as SCHEDULER_X (ACCOUNT_X) has the assigned value and every other setting keeps its default.", "quantifier": "all setting names and values", "why_tests_cant": "all names", "anchors": ["jqtrade/scheduler/config.py: _load_config, setup_scheduler_config", "jqtrade/account/config.py: _load_config, setup_account_config"]}
{"id": "C52", "title": "Datetime/millisecond conversion round trip", "statement": "dt_to_milliseconds(dt) is the number of whole milliseconds since the epoch of dt, and converting milliseconds to a datetime and back is the identity.", "quantifier": "all datetimes and all millisecond values", "why_tests_cant": "all sub-second values", "anchors": ["jqtrade/common/utils.py: dt_to_milliseconds, milliseconds_to_dt"]}
{"id": "C53", "title": "Order serialisation round trip", "statement": "Loading the JSON form of an order yields an order with the same values in every field.", "quantifier": "all orders", "why_tests_cant": "all field values", "anchors": ["jqtrade/account/order.py: Order.json, Order.load"]}
{"id": "C54", "title": "Account API is unavailable unless the account is enabled", "statement": "Before set_options has enabled the account, and whenever use_account is False, every account API raises InvalidCall and has no effect; with a successful set_options(use_account=True) they are available.", "quantifier": "all option values and API calls", "why_tests_cant": "all call sequences", "anchors": ["jqtrade/scheduler/context.py: Context.account, Context.portfolio, Context.trade_gate", "jqtrade/scheduler/strategy.py: Strategy.set_options"]}
{"id": "C55", "title": "The account is synchronised once per sync instant", "statement": "At each sync instant the strategy's account performs one balance sync followed by one order sync, and only the current account object is synchronised, also when set_options is called more than once.", "quantifier": "all sequences of set_options calls", "why_tests_cant": "all call sequences", "anchors": ["jqtrade/scheduler/strategy.py: Strategy.set_options, Strategy.setup_account", "jqtrade/account/account.py: Account._setup_sync_timer", "jqtrade/scheduler/event.py: create_event_class"]}
{"id": "C56", "title": "print goes to the log file exactly when one is configured", "statement": "In a strategy, print(...) without file= goes to the -o file when one was given and to stdout otherwise; print(..., file=f) always goes to f; output is flushed unless flush is given.", "quantifier": "all argument combinations", "why_tests_cant": "all combinations", "anchors": ["jqtrade/scheduler/api.py: strategy_print"]}
{"id": "C57", "title": "The strategy module loaded is the file given by -c", "statement": "The loader imports the module whose file is the -c path, with its directory first on sys.path.", "quantifier": "all paths", "why_tests_cant": "all file names", "anchors": ["jqtrade/scheduler/loader.py: Loader"]}
{"id": "C58", "title": "A task process calls each scheduled function at the owed instants", "statement": "In every state of a live task process (no history start) with non-empty whole-second market periods, the calls made for the k-th run_daily entry, in order, form a beginning of (or extend) the list of instants that entry is owed from start-up on over the EVENT_DAYS_COUNT days generated at start-up: one per minute of each period for every_minute, opening/closing time with its offset for relative expressions, 30 minutes before/after for before_open/after_close, the clock time for HH:MM[:SS]; and each call goes to the function given, provided its name still names it.", "quantifier": "all strategies, option values, start times and loop executions (wake-ups, clock readings, exceptions, stops)", "why_tests_cant": "end-to-end composition of parsing, event generation, queue, loop and bus over unbounded executions", "anchors": ["jqtrade/scheduler/runner.py: TaskRunner", "jqtrade/scheduler/strategy.py: Strategy.schedule", "jqtrade/scheduler/event_source.py: EventSource, EventSourceScheduler", "jqtrade/scheduler/loop.py: EventLoop"]}
{"id": "C59", "title": "No scheduled call is overtaken", "statement": "Under the same conditions, once the function of one entry has been called for instant x, every other entry's owed calls before x have been made; and those at x as well when the other entry is every_minute and the first is not.", "quantifier": "all strategies, option values, start times and loop executions", "why_tests_cant": "depends on every interleaving of sources and clock readings", "anchors": ["jqtrade/scheduler/event_source.py: EventSourceScheduler", "jqtrade/scheduler/loop.py: EventLoop.check_queue", "jqtrade/scheduler/queue.py: PriorityQueue"]}
{"id": "C60", "title": "The loop never sleeps on a due call and never calls early", "statement": "Under the same conditions, when the loop goes to sleep at clock reading T every owed instant up to T has been called; and a call for instant x is only made after the loop has read a clock at or past x.", "quantifier": "all strategies, option values, start times and loop executions", "why_tests_cant": "depends on every execution and clock behaviour", "anchors": ["jqtrade/scheduler/loop.py: EventLoop.check_queue", "jqtrade/scheduler/event_source.py: EventSourceScheduler"]}
{"id": "C61", "title": "Functions scheduled for the same time are called in the order of their run_daily calls", "statement": "Under the same conditions, of two run_daily calls with the same time the function of the earlier one is called first at every instant both are owed.", "quantifier": "all strategies, option values, start times and loop executions", "why_tests_cant": "depends on the message numbering over unbounded executions and on the clock readings during start-up", "anchors": ["jqtrade/scheduler/strategy.py: Strategy.schedule", "jqtrade/scheduler/event_source.py: EventSource.setup, EventSourceScheduler", "jqtrade/scheduler/message.py: Message", "jqtrade/scheduler/loop.py: EventLoop.check_queue"]}
{"id": "C62", "title": "The account is synced at every owed instant, before the tasks of that instant", "statement": "In every state of a live task process whose process_initialize makes one successful set_options call with use_account and at least one sync enabled: the account calls made so far are, for the instants owed to the sync timer in order, the balance sync followed by the order sync (as enabled); once a task function has been called for instant x all syncs owed up to and including x have been made; and when the loop goes to sleep at clock reading T all syncs owed up to T have been made.", "quantifier": "all strategies, sync intervals and periods, start times and loop executions", "why_tests_cant": "depends on the interleaving of the sync source with every task source over unbounded executions", "anchors": ["jqtrade/account/account.py: Account._setup_sync_timer", "jqtrade/scheduler/event.py: EventPriority", "jqtrade/scheduler/event_source.py: EventSourceScheduler", "jqtrade/scheduler/loop.py: EventLoop.check_queue"]}
{"id": "C63", "title": "The event queue is linearizable under threads", "statement": "ThreadSafeQueue used by any number of threads: the calls look as if made one at a time on a priority queue, in an order in which a call that returned before another was made comes first; and no call can get stuck.", "quantifier": "all numbers of threads, calls and interleavings, at the granularity of single list operations", "why_tests_cant": "the interleavings are unbounded and not controllable in a test", "anchors": ["jqtrade/scheduler/queue.py: ThreadSafeQueue"]}
{"id": "C64", "title": "Every message has its own sequence number", "statement": "No two Message objects get the same seq_number, also when they are created in several threads; so pushing a message never compares messages and never raises.", "quantifier": "all threads and interleavings", "why_tests_cant": "needs a thread switch between two bytecodes", "anchors": ["jqtrade/scheduler/message.py: Message.__init__", "jqtrade/scheduler/queue.py: PriorityQueue.push"]}
{"id": "C65", "title": "Syncing the orders again changes nothing", "statement": "An order sync whose reports say what the account book already says leaves book, positions, cash and notices as they are; in particular, syncing twice with the same reports does the same as syncing once.", "quantifier": "all trade gates, gate states, account books and reports", "why_tests_cant": "needs every combination of book contents and reports, including reports that fail midway", "anchors": ["jqtrade/account/account.py: Account.sync_orders, Account.on_order_updated", "jqtrade/account/order.py: Order.load"]}
{"id": "C66", "title": "The end of an order is told exactly once", "statement": "For every order known to the account, the notices telling that it is filled, canceled or rejected are given exactly when its reported status turns final: once, and never for an order that was already final.", "quantifier": "all trade gates and all histories of orders, cancels, syncs and changes at the broker", "why_tests_cant": "needs all sequences of reports over a whole history", "anchors": ["jqtrade/account/account.py: Account.sync_orders, Account.on_order_updated, Account._notify_changed"]}
{"id": "C67", "title": "Timestamps are read as written", "statement": "Of the texts in ASCII whose only white space, if any, is one blank, parse_dt accepts exactly those of the form YYYY-MM-DD HH:MM:SS[.ffffff] (months, days, hours, minutes and seconds also with one digit) that denote an existing date and time, gives that time, and raises ValueError for the others; the text written for a time (years 1000 to 9999) is read back to the microsecond.", "quantifier": "all ASCII texts with at most one blank and no other white space; all times", "why_tests_cant": "all calendar dates and all malformed texts", "anchors": ["jqtrade/common/utils.py: parse_dt", "jqtrade/account/order.py: Order.json, Order.load"]}
{"id": "C68", "title": "The strategy sees what the broker's files say", "statement": "A process trading through the AnXin gate on one day, with failures, crashes and restarts: after a successful order sync the account shows every order the gate knows with the code, amount, direction and price it was placed with, and with the values of its last update line, rejected if the result file rejects it, new if no line is about it; the first sync after a restart shows the same.", "quantifier": "all histories of orders, cancels, file growth, syncs, failures and restarts of a day, and all file contents", "why_tests_cant": "composes account, gate, reader positions, save file and restart over unbounded histories", "anchors": ["jqtrade/account/account.py: Account.sync_orders, Account.order", "jqtrade/account/trade_gate.py: AnXinDMATradeGate.sync_orders, AnXinDMATradeGate._load_orders"]}
{"id": "C69", "title": "Waiting for a file lock ends in time", "statement": "A submission to an order file is written exactly if an attempt gets the lock before a busy attempt has seen the configured time-out gone; TimeOut is raised only after that; and the wait is no longer than the time-out.", "quantifier": "all time-outs, polling intervals, clock readings and lock states", "why_tests_cant": "needs control of the clock and of the other lock holders at every attempt", "anchors": ["jqtrade/account/trade_gate.py: AnXinDMATradeGate._write"]}
{"id": "C70", "title": "A save file that could not be read is not lost", "statement": "If reading the save file fails when a process starts, the orders acknowledged that day are still recovered by a later start of that day that can read it; and save files stay complete and only hold submitted orders.", "quantifier": "all executions with kills, failures and failing reads at any start", "why_tests_cant": "needs a read failure at start-up combined with kills and later restarts", "anchors": ["jqtrade/account/trade_gate.py: AnXinDMATradeGate._load_orders, AnXinDMATradeGate._save_orders"]}
{"id": "C71", "title": "Each file of a task is its own", "statement": "Two save files, temporary files or broker files (of any tasks, days and directories) are the same file only if they are of the same kind, in the same directory, of the same day and, for the first two, of the task with the same name.", "quantifier": "all task names, days, directories and working directories", "why_tests_cant": "all pairs of names, including ones made to collide", "anchors": ["jqtrade/account/trade_gate.py: AnXinDMATradeGate.setup, AnXinDMATradeGate._save_orders, AnXinDMATradeGate._order_csv, AnXinDMATradeGate._order_update_csv"]}
{"id": "C72", "title": "The saved orders are where they are looked for", "statement": "The save file lies in the runtime directory that set_options creates and logs, and a task restarted from another working directory uses the same file.", "quantifier": "all runtime directories, homes, working directories, tasks and days", "why_tests_cant": "all forms of paths", "anchors": ["jqtrade/account/trade_gate.py: AnXinDMATradeGate.setup", "jqtrade/scheduler/strategy.py: Strategy.set_options"]}
{"id": "C73", "title": "get_tasks shows the running tasks", "statement": "get_tasks shows every running task once, with its pid and the name, code file, log file, environment and debug flag it was started with, and nothing else.", "quantifier": "all process tables and command lines", "why_tests_cant": "needs arbitrary process tables and all accepted spellings of the command line", "anchors": ["jqtrade/__main__.py: get_tasks", "jqtrade/scheduler/utils.py: get_activate_task_process, parse_task_info"]}
{"id": "C74", "title": "The log goes to one place, in order", "statement": "What the strategy and the framework log from INFO on (from DEBUG on with --debug) is written once each, in order, to the file given with -o, or to the standard output without -o; nothing is written elsewhere, and which messages are written does not depend on -o.", "quantifier": "all sequences of log calls and level changes, with and without log file and debug", "why_tests_cant": "all sequences of calls and level changes", "anchors": ["jqtrade/common/log.py: setup_logger, setup_file_logger", "jqtrade/scheduler/runner.py: TaskRunner"]}
{"id": "C75", "title": "A task starts exactly when its times make sense", "statement": "In live mode a task starts only if every time its process_initialize gave to run_daily is one of the documented forms (a keyword, open/close with an offset, h:m or h:m:s), and starts whenever they all are; a time that cannot be scheduled is refused by run_daily, before anything else is set up.", "quantifier": "all process_initialize call sequences, times, market periods and clock readings", "why_tests_cant": "infinitely many texts; the acceptance conditions are spread over run_daily, the parser and event generation", "anchors": ["jqtrade/scheduler/strategy.py: run_daily, schedule", "jqtrade/scheduler/event_source.py: add_event, TimeExprParser"]}
{"id": "C76", "title": "A delivery calls the callbacks registered when it began", "statement": "Whatever the callbacks register or unregister on the bus during a delivery, EventBus.emit calls exactly the callbacks that were registered for the event when it began, each once, in order of priority and registration, and stops early only at an exception of one of them.", "quantifier": "all registration histories, events, callback behaviours (their changes to the bus may depend on any state), class hierarchies", "why_tests_cant": "tests with fixed callbacks never change the bus while it iterates; the outcome depends on positions in the live list and on which class is iterated last", "anchors": ["jqtrade/scheduler/bus.py:EventBus.emit", "jqtrade/scheduler/bus.py:EventBus.register", "jqtrade/scheduler/bus.py:EventBus.unregister"]}
{"id": "C77", "title": "set_options takes effect completely or not at all", "statement": "A set_options call that returns has put its options in force and, if they enable the account, made a new account object current; a set_options call that raises leaves the strategy as it was.", "quantifier": "all keyword arguments, strategy states, outcomes of creating the directory, loading the gate and setting up the account", "why_tests_cant": "needs every point at which the call can fail combined with every earlier state", "anchors": ["jqtrade/scheduler/strategy.py:Strategy.set_options", "jqtrade/scheduler/strategy.py:Strategy.setup_account", "jqtrade/common/utils.py:parse_time"]}
{"id": "C78", "title": "An option stays as set until it is set again", "statement": "After any sequence of set_options calls in process_initialize, each option has the value of the last call that gave it.", "quantifier": "all call sequences, keyword arguments, outcomes", "why_tests_cant": "two calls giving different options are needed; each alone behaves as expected", "anchors": ["jqtrade/scheduler/strategy.py:Strategy.set_options", "jqtrade/scheduler/strategy.py:Strategy.options"]}
{"id": "C79", "title": "A task's orders depend only on the lines about them", "statement": "What a task knows of its orders after a sync depends only on the lines of the broker's files about these orders: adding or leaving out lines about other orders changes nothing.", "quantifier": "all file contents, all orders, all histories of the task", "why_tests_cant": "the broker's files are shared by all tasks of an account; tests write only lines of the task under test", "anchors": ["jqtrade/account/trade_gate.py:AnXinDMATradeGate.sync_orders", "jqtrade/account/trade_gate.py:AnXinDMATradeGate._update_order"]}
{"id": "C80", "title": "The order file holds exactly the acknowledged orders", "statement": "Over any history of orders, cancels, syncs, day changes and restarts, the order file of a day is one header followed by one line for each order of that day whose id was returned, in order, with that order's data; the cancel file likewise holds one line for each cancel of a known order.", "quantifier": "all histories (any number of orders, cancels, syncs, restarts, days), broker file contents, disk outcomes", "why_tests_cant": "needs every disk outcome at every point of an unbounded history; a test writes to a disk that works", "anchors": ["jqtrade/account/trade_gate.py:AnXinDMATradeGate.order", "jqtrade/account/trade_gate.py:AnXinDMATradeGate.cancel_order", "jqtrade/account/trade_gate.py:AnXinDMATradeGate._write", "jqtrade/account/account.py:Account.order"]}
{"id": "C81", "title": "A rejected cancel is told once", "statement": "Every cancel rejection that the broker reports while the process runs is logged exactly once, in the order reported, by the next order sync.", "quantifier": "all histories of one day (orders, cancels, file growth, syncs, failing syncs, restarts), all file contents without unreadable lines", "why_tests_cant": "needs rejections arriving at every point relative to the first sync and to restarts; tests use one prepared file", "anchors": ["jqtrade/account/trade_gate.py:AnXinDMATradeGate.sync_orders", "jqtrade/account/trade_gate.py:AnXinDMATradeGate.cancel_order"]}
{"id": "C82", "title": "A daily order is submitted once per owed instant", "statement": "If the function of a run_daily entry places one order per call through the AnXin gate, then when the loop goes to sleep after the end of a day, the order file of that day holds a header and exactly one line, with the order's data, for each instant of that day owed to the entry.", "quantifier": "all process starts, run_daily calls, times, loop histories, account and gate activity in between (cancels, syncs, broker files), days, disk outcomes", "why_tests_cant": "composes scheduler, event sources, bus, account and gate over days of running time; needs a real clock and a broker directory", "anchors": ["jqtrade/scheduler/strategy.py:Strategy.run_daily", "jqtrade/scheduler/loop.py:EventLoop.run", "jqtrade/account/account.py:Account.order", "jqtrade/account/trade_gate.py:AnXinDMATradeGate.order"]}
{"id": "C83", "title": "A call of the gate behaves as if made at one moment", "statement": "A gate call that overlaps midnight behaves as one made before or after midnight: an order or cancel line is written to the file of the day on which, at the stamped time, the call was made; an order sync or balance sync uses the files of one day.", "quantifier": "all clock readings within a call, all file contents at each reading, all orders and options", "why_tests_cant": "the window is microseconds wide, once a day; a test can not place the clock readings on both sides of it", "anchors": ["jqtrade/account/trade_gate.py:AnXinDMATradeGate.order", "jqtrade/account/trade_gate.py:AnXinDMATradeGate.cancel_order", "jqtrade/account/trade_gate.py:AnXinDMATradeGate.sync_orders", "jqtrade/account/trade_gate.py:AnXinDMATradeGate.sync_balance", "jqtrade/account/trade_gate.py:AnXinDMATradeGate._date"]}
{"id": "C84", "title": "The broker's texts are read as written", "statement": "With file_encoding set to the encoding in which the broker writes, an order sync reads the texts of the result and update files as the broker wrote them; bytes that can not be decoded affect at most the line that holds them.", "quantifier": "all encodings, locales, file contents, offsets, orders, options", "why_tests_cant": "the outcome depends on the locale of the machine and on non-ASCII texts; tests use ASCII files or one locale", "anchors": ["jqtrade/account/trade_gate.py:AnXinDMATradeGate.sync_orders", "jqtrade/account/trade_gate.py:AnXinDMATradeGate.check_file_exists"]}
{"id": "C85", "title": "A sync while the broker writes shows the files of one moment", "statement": "An order sync during which the broker appends to its files leaves all orders as a sync of the files as they were at one moment of the run would; later syncs then lose nothing.", "quantifier": "all growths of the files between any two reads of a sync, all histories before it, all file contents", "why_tests_cant": "the broker's writes would have to be placed between two readline() calls of a running sync", "anchors": ["jqtrade/account/trade_gate.py:AnXinDMATradeGate.sync_orders", "jqtrade/account/trade_gate.py:AnXinDMATradeGate._update_order"]}
{"id": "C86", "title": "Float arithmetic does not change times", "statement": "The conversions between datetimes and milliseconds, done in floating point, give what exact arithmetic would give: the scheduled millisecond of every instant, and the datetime shown for every millisecond.", "quantifier": "all datetimes, all milliseconds, all UTC offsets in whole seconds", "why_tests_cant": "rounding depends on the magnitude of the timestamp; a test samples a few of 10^14 values", "anchors": ["jqtrade/common/utils.py:dt_to_milliseconds", "jqtrade/common/utils.py:milliseconds_to_dt"]}
{"id": "C87", "title": "Restarting a task neither repeats nor loses a scheduled call", "statement": "Over any sequence of processes of one task, each started after the one before ended, the function of a run_daily entry is called exactly once for each of its instants from the first start to the last sleep.", "quantifier": "all strategies, all entries, all sequences of processes of a task, all executions of each", "why_tests_cant": "needs whole executions of several processes with chosen start, stop and clock times; a test shows one restart", "anchors": ["jqtrade/scheduler/event_source.py:setup", "jqtrade/scheduler/event_source.py:add_event", "jqtrade/scheduler/strategy.py:setup", "jqtrade/scheduler/loop.py:run"]}
{"id": "C88", "title": "The loop wakes up when its next message is due", "statement": "A message not yet due is slept on until it is due: the timer runs for the time left, every sleep ends in time, and after a bounded number of sleeps the message is due.", "quantifier": "all due times, all clock values until 2106, all latencies of the machine", "why_tests_cant": "float rounding of the wait and of the clock reading depends on the exact values; lateness is of a millisecond and depends on the machine", "anchors": ["jqtrade/scheduler/loop.py:check_queue", "jqtrade/scheduler/loop.py:get_current_time"]}
{"id": "C89", "title": "The fields of the balance files are read as written", "statement": "sync_balance reads the records of the asset and position files as the broker wrote them: every field, with its commas, ends of lines and quotes, reaches the report of its own record, and a file that ends inside a field is not taken for complete.", "quantifier": "all records, all ways of writing each field (bare or quoted), both ends of lines, all places to cut a quoted field", "why_tests_cant": "the quote character makes the reading of a record depend on all of the file before it", "anchors": ["jqtrade/account/trade_gate.py:_read_csv", "jqtrade/account/trade_gate.py:sync_balance"]}
{"id": "C90", "title": "A task that runs for years is called once at every instant owed", "statement": "However many days a task process runs, each function given to run_daily has been called exactly once for every instant it is owed and that is due, whenever the loop goes to sleep.", "quantifier": "all start-ups, market periods, entries, executions of the loop (any number of days), clock readings and days on which a callback ends", "why_tests_cant": "the days are generated in windows of 365: a test that runs a task for a few days never sees a second window", "anchors": ["jqtrade/scheduler/event_source.py:_get_days", "jqtrade/scheduler/event_source.py:gen_events", "jqtrade/scheduler/event_source.py:schedule"]}
{"id": "C91", "title": "A refused start leaves no trace", "statement": "start_task starts a task exactly if the code file exists, no other task has the name, the log can be opened, the environment text is well formed and the configuration file exists; otherwise it changes nothing on the machine.", "quantifier": "all command line options, process tables, file systems, environments and homes", "why_tests_cant": "the order of the start-up checks only shows on a machine where one of the later ones fails; tests start tasks that are accepted", "anchors": ["jqtrade/scheduler/runner.py:TaskRunner", "jqtrade/scheduler/runner.py:_exist_repeated_task", "jqtrade/__main__.py:start_task"]}
{"id": "C92", "title": "What is typed on the command line is what is done", "statement": "On every command line the command that was typed runs, with exactly the options that were typed: each option has the value written last, in whichever of argparse's spellings (full name or unambiguous beginning of it; value as next token, after '=', or behind a one-letter name), flags are on exactly if written, and nothing runs or is signalled that was not asked for.", "quantifier": "all lists of options in all spellings, all token lists (for what the options come from), all process tables with readable processes", "why_tests_cant": "The spellings of options combine freely with each other, with repeated options and with values that look like options; a test fixes one command line.", "anchors": ["jqtrade/__main__.py:main", "jqtrade/__main__.py:stop_task"]}
{"id": "C93", "title": "A position object kept by the strategy shows the account's figures", "statement": "A UserPosition obtained from the portfolio and kept by the strategy shows, whenever it is read later, the present figures of that holding in the account.", "quantifier": "all gates, all histories of orders, cancels, syncs and gate changes before and after the object is obtained", "why_tests_cant": "Whether a kept object is current depends on which operations came between; a test reads it at one moment after one history.", "anchors": ["jqtrade/account/position.py:Position", "jqtrade/account/api.py:UserPosition", "jqtrade/account/portfolio.py:Portfolio", "jqtrade/account/account.py:sync_balance"]}
{"id": "C94", "title": "Tasks run at their time of day where the clock changes for summer time", "statement": "In every time zone, whatever its offset changes, a task due at a local time runs when the clock first shows that time, not before the process is started, and tasks run in the order of their times.", "quantifier": "all zones whose offset changes at most once in ten days, all start times, all whole-second task times", "why_tests_cant": "A test runs in the zone of the machine, on the day it is run; the days with a clock change are two in a year.", "anchors": ["jqtrade/common/utils.py:dt_to_milliseconds", "jqtrade/common/utils.py:milliseconds_to_dt", "jqtrade/scheduler/event_source.py:add_event", "jqtrade/scheduler/loop.py:strategy_dt"]}
{"id": "C95", "title": "Scheduled functions start soon after their time", "statement": "However the calls fall together, every scheduled function starts at most one round of all tasks after its time, plus the delay with which the loop is woken.", "quantifier": "all strategies, all executions, all running times of the functions within their bounds, all wake-up delays", "why_tests_cant": "A delay shows up when long calls of several functions meet; a test sees the meetings of one short run.", "anchors": ["jqtrade/scheduler/loop.py:EventLoop", "jqtrade/scheduler/queue.py:PriorityQueue", "jqtrade/scheduler/event_source.py:EventSource", "jqtrade/scheduler/strategy.py:Strategy"]}
{"id": "C96", "title": "The order books of a task do not grow for ever", "statement": "However long a task process runs, its order books hold only the orders of the day and those not yet finished.", "quantifier": "all strategies, all executions of any length, all sequences of orders, cancels and syncs with any gateway files", "why_tests_cant": "Growth shows after months of running; a test runs for seconds.", "anchors": ["jqtrade/scheduler/loop.py:EventLoop", "jqtrade/scheduler/event_source.py:EventSource", "jqtrade/scheduler/strategy.py:Strategy", "jqtrade/account/account.py:Account", "jqtrade/account/trade_gate.py:AnXinDMATradeGate"]}
{"id": "C97", "title": "The portfolio shows what the balance files say", "statement": "After a sync the cash and the positions that a strategy sees are those that today's asset and position files state for its account, and a sync that fails leaves both as they were.", "quantifier": "all contents of both files, all earlier states of the account, all ways of reading numbers", "why_tests_cant": "The csv text, the gateway and the account are far apart; a test of one of them uses a hand-made input of the next.", "anchors": ["jqtrade/account/trade_gate.py:AnXinDMATradeGate", "jqtrade/account/account.py:Account", "jqtrade/account/portfolio.py:Portfolio", "jqtrade/account/position.py:Position"]}
{"id": "C98", "title": "A strategy that sells at most its closeable amount never oversells", "statement": "If a strategy only sells as many shares as the position's closeable amount says, the order file never asks the broker to sell more shares than the account holds.", "quantifier": "all strategies, all histories of orders, cancels, syncs and restarts, all contents of the gateway's files", "why_tests_cant": "It depends on how old the position file is when it is read and on orders whose saving failed; a test has one file.", "anchors": ["jqtrade/account/position.py:Position", "jqtrade/account/account.py:Account", "jqtrade/account/trade_gate.py:AnXinDMATradeGate"]}
{"id": "C99", "title": "A task process with an end date ends", "statement": "A task process that has an end date ends by itself, after everything it owed was dispatched.", "quantifier": "all strategies, all clocks, all interleavings of callbacks, signals and other threads", "why_tests_cant": "Ending too early or never shows only after days of running, or in processes that have nothing to do.", "anchors": ["jqtrade/scheduler/loop.py:EventLoop", "jqtrade/scheduler/event_source.py:EventSourceScheduler", "jqtrade/scheduler/strategy.py:Strategy"]}
{"id": "C100", "title": "Tasks that trade in one directory do not disturb each other", "statement": "Several tasks may use the same broker directory: whatever the others do and whatever the disk does, each is told the ids and gets the account, the gate state and the saved orders it would get without the others.", "quantifier": "any number of tasks, all interleavings of their calls and of the broker's writes, all disk failures, anything in the order and cancel files", "why_tests_cant": "Needs several processes, and compares a run with the runs that did not happen.", "anchors": ["jqtrade/account/trade_gate.py:AnXinDMATradeGate", "jqtrade/account/account.py:Account"]}
{"id": "C101", "title": "The shared order file holds the lines of every task", "statement": "When several tasks use the same broker directory, the order and cancel files hold the lines each task would write on its own, each once and in the task's order, below one header.", "quantifier": "any number of tasks, all interleavings of their calls, all disk failures but torn writes", "why_tests_cant": "Needs several processes and failures of the disk at chosen moments.", "anchors": ["jqtrade/account/trade_gate.py:AnXinDMATradeGate"]}
{"id": "C102", "title": "Setting the gate up again does not multiply the retries", "statement": "However often the gate is set up in a process, a retried file access is tried at most max_attempts+1 times.", "quantifier": "all outcome sequences, any number of gate set-ups", "why_tests_cant": "A second set-up is rare and the product shows only when the file is missing.", "anchors": ["jqtrade/common/utils.py:simple_retry", "jqtrade/account/trade_gate.py:AnXinDMATradeGate"]}
{"id": "C103", "title": "The file lock admits one writer at a time", "statement": "Of any number of processes that append to a file, the one between taking and releasing the lock is the one holding it, and no other is there.", "quantifier": "any number of writers, all interleavings, time-outs and kills", "why_tests_cant": "Needs processes to be stopped at every instruction.", "anchors": ["jqtrade/account/trade_gate.py:AnXinDMATradeGate"]}
{"id": "C104", "title": "The scheduler of a task that runs for years needs no more memory", "statement": "However long a task process runs, at most one message per event source is queued, each source keeps its daily entries, and holds no more than the events of one day and the days it generates at once.", "quantifier": "all strategies, all executions of any length", "why_tests_cant": "The bound must hold after years of running.", "anchors": ["jqtrade/scheduler/loop.py:EventLoop", "jqtrade/scheduler/event_source.py:EventSource", "jqtrade/scheduler/strategy.py:Strategy"]}
{"id": "C105", "title": "A task process ends only for a reason it knows", "statement": "A task process ends for one of five reasons (a signal, stop(), an exit checker, an empty queue, a callback that failed) and for no other; once one of them has happened it returns at once; if nobody told it to and no callback failed nothing was left to run, and a live process with something to run does not end then.", "quantifier": "all strategies, all clocks, all interleavings of callbacks, signals and other threads", "why_tests_cant": "Ending too early shows only after days of running.", "anchors": ["jqtrade/scheduler/loop.py:EventLoop", "jqtrade/scheduler/event_source.py:EventSourceScheduler", "jqtrade/scheduler/strategy.py:Strategy"]}
{"id": "C106", "title": "A command gets exactly the options that were typed", "statement": "start_task and stop_task run with the values written last for each option, in every spelling argparse knows, and with the flags that were written; they are refused without a required option, with a pid that is no integer or with a token that looks like an option and is none; get_tasks takes no options; and on any list of tokens at all a command that runs is the first token and each of its options comes from a token.", "quantifier": "all lists of options in all spellings; all token lists for what the options come from", "why_tests_cant": "The spellings and their orders are unbounded.", "anchors": ["jqtrade/__main__.py:main"]}
{"id": "C107", "title": "An order sync loses no order and touches only reported ones", "statement": "No order ever leaves the order book of the account, whatever the strategy calls and the gate answers; a sync leaves the orders that are not reported as they are, also when it fails.", "quantifier": "all gates, all histories of calls", "why_tests_cant": "Needs every gate and every history.", "anchors": ["jqtrade/account/account.py:Account"]}
{"id": "C108", "title": "The end of an order is told exactly when it is reported", "statement": "As long as the gate's reports can be loaded, the notices telling that a known order is filled, canceled or rejected are exactly the points where its reported status turns final; an order that was final before gets none while it stays so.", "quantifier": "all trade gates and all histories of orders, cancels, syncs and changes at the broker", "why_tests_cant": "Needs every history of reports.", "anchors": ["jqtrade/account/account.py:Account"]}
{"id": "C109", "title": "A position read anew shows the account's figures", "statement": "A position obtained from the portfolio shows the figures the account has then, and sharing Position objects between account and strategy changes no result of any call.", "quantifier": "all gates, all histories of orders, cancels, syncs and gate changes", "why_tests_cant": "Needs every history before the reading.", "anchors": ["jqtrade/account/position.py:Position", "jqtrade/account/portfolio.py:Portfolio"]}
{"id": "C110", "title": "A strategy sees the framework's names and its own", "statement": "After the APIs are injected, the names documented for strategies denote the framework's functions (those of the account only if it is enabled), whatever the strategy defined under them, and all other names denote what the strategy defined.", "quantifier": "all strategy modules, all settings", "why_tests_cant": "Needs every name.", "anchors": ["jqtrade/scheduler/strategy.py:Strategy"]}
{"id": "C111", "title": "The schedule is what process_initialize asked for", "statement": "However process_initialize ends, the schedule is the list of its run_daily calls, in order, with the times they stand for; after set-up no user code changes schedule, options, bus, sources or account.", "quantifier": "all strategies (call sequences inside and after process_initialize)", "why_tests_cant": "The call sequences are unbounded.", "anchors": ["jqtrade/scheduler/strategy.py:Strategy"]}
{"id": "C112", "title": "A task is started exactly under these conditions, and as asked", "statement": "start_task starts a task exactly if the code file exists, no other task has the name, the log can be opened, the environment text is well formed and the configuration file exists; a started task has its log where it was asked to, the given variables, the given directories in front of its path, and the settings the configuration file assigns, and no other file is opened.", "quantifier": "all command line options, process tables, file systems, environments and homes", "why_tests_cant": "Needs every machine.", "anchors": ["jqtrade/scheduler/runner.py:TaskRunner", "jqtrade/scheduler/runner.py:_exist_repeated_task"]}
{"id": "C113", "title": "A blank cash figure does not disturb the cash shown", "statement": "After any number of balance syncs each cash figure of the portfolio is the number the files gave last; a figure that a file leaves blank changes nothing.", "quantifier": "all sequences of balance files, accounts and number formats", "why_tests_cant": "Needs every sequence of files; a blank cell and a zero have to follow each other for the worst case.", "anchors": ["jqtrade/account/account.py:Account", "jqtrade/account/trade_gate.py:AnXinDMATradeGate.sync_balance"]}
{"id": "C114", "title": "stop_task and get_tasks concern running tasks only", "statement": "Whatever processes run on the machine, stop_task signals and get_tasks shows only processes it can read whose command line mentions jqtrade and start_task and that are not the parent of another such process; stop_task signals only those that were selected, each once, with the signal asked for, and none if nothing was selected; with a python process that cannot be read neither does anything.", "quantifier": "all process tables, all options", "why_tests_cant": "The processes of other users cannot all be tried.", "anchors": ["jqtrade/__main__.py:stop_task", "jqtrade/__main__.py:get_tasks", "jqtrade/scheduler/utils.py:get_activate_task_process"]}
{"id": "C115", "title": "The order file starts with its header and gets no further one", "statement": "A new order file starts with the header as soon as it has any contents, and a file that has contents gets no further header, however many tasks write.", "quantifier": "any number of writers, all interleavings, time-outs and kills", "why_tests_cant": "Needs processes to be stopped at every instruction.", "anchors": ["jqtrade/account/trade_gate.py:AnXinDMATradeGate"]}
{"id": "C116", "title": "A CSV file is read back as it was written", "statement": "Records whose fields are quoted, or bare without comma, line end and leading quote, are read back field by field; blank lines are no records; a file cut inside a quoted field is refused.", "quantifier": "all records, all files", "why_tests_cant": "The files are texts of any length.", "anchors": ["jqtrade/account/trade_gate.py:AnXinDMATradeGate"]}
{"id": "C117", "title": "A task that runs for years is called for whole windows of days", "statement": "However long a task process runs, the calls of a scheduled function are those owed in successive windows of EVENT_DAYS_COUNT days, each delivered whole and in order before the next; each further window starts on the date a callback ended; if callbacks end on the day they were due, windows overlap by exactly one day.", "quantifier": "all strategies, all executions of any length", "why_tests_cant": "Takes years of running.", "anchors": ["jqtrade/scheduler/event_source.py:EventSource", "jqtrade/scheduler/loop.py:EventLoop", "jqtrade/scheduler/strategy.py:Strategy"]}
{"id": "C118", "title": "A function starts late only because of the work before it", "statement": "Every callback of the loop starts, at the latest, the wake-up delay and the running times of the callbacks in between after the time of some callback not after it; and, within the days generated at start-up, if no call started so far was later than a bound, every instant owed more than that bound ago has been called.", "quantifier": "all handlers, all executions, all running times and wake-up delays", "why_tests_cant": "Delays come from meetings of calls that no single run shows.", "anchors": ["jqtrade/scheduler/loop.py:EventLoop", "jqtrade/scheduler/queue.py:PriorityQueue", "jqtrade/scheduler/event_source.py:EventSource"]}
{"id": "C119", "title": "What a position object kept by the strategy shows", "statement": "Until the next answered balance sync a kept long position shows the figures it had, with the closeable amount lowered by the closing orders the gate took since; from that sync on it never changes; a kept short position never changes.", "quantifier": "all gates, all histories of calls", "why_tests_cant": "Needs every history.", "anchors": ["jqtrade/account/portfolio.py:Portfolio", "jqtrade/account/account.py:Account"]}
{"id": "C120", "title": "An environment text is accepted exactly if every part has one equals sign", "statement": "The text of the env option is accepted exactly if each of its parts between semicolons has exactly one equals sign, and otherwise refused with ValueError.", "quantifier": "all texts", "why_tests_cant": "The texts are unbounded.", "anchors": ["jqtrade/scheduler/utils.py:parse_env"]}
{"id": "C121", "title": "An order is written exactly if the lock is got in time", "statement": "A submission is written exactly if some attempt gets the lock while all before it found it busy and left time; TimeOut is raised exactly if a busy attempt found the configured time gone.", "quantifier": "all sequences of attempts and clock readings", "why_tests_cant": "Needs every timing of the other writers.", "anchors": ["jqtrade/account/trade_gate.py:AnXinDMATradeGate"]}
{"id": "C122", "title": "A balance sync takes effect as a whole or not at all", "statement": "Whatever the balance files hold, a sync leaves the account as it was, or its positions are those of one reading of the files and its cash figures those of the last record of the account without exchange (but for zeros and blanks); a file is accepted exactly if it has a header, no record is wider, and the last record is empty.", "quantifier": "all files, all accounts", "why_tests_cant": "The files are texts of any length and may be cut anywhere.", "anchors": ["jqtrade/account/trade_gate.py:AnXinDMATradeGate", "jqtrade/account/account.py:Account"]}
{"id": "C123", "title": "Which cash figure is shown after any number of syncs", "statement": "After every sequence of balance syncs each cash figure is the one the files gave last, where zeros do not count, a blank one is nan and the first value is 0; this determines the figure.", "quantifier": "all sequences of files", "why_tests_cant": "Needs sequences of any length.", "anchors": ["jqtrade/account/trade_gate.py:AnXinDMATradeGate", "jqtrade/account/account.py:Account"]}
{"id": "C124", "title": "The loop's clock and timer are right to a millisecond", "statement": "In double precision a clock reading is that of the clock to 2 microseconds; the timer is started for the time left or one millisecond less, never for 0 and exactly up to a tenth of a second; with evenly running clocks sleeping goes on until the message is due.", "quantifier": "all clock values until 2106, all times left below 2^42 ms", "why_tests_cant": "Rounding errors show up at particular values only.", "anchors": ["jqtrade/scheduler/loop.py:EventLoop"]}
{"id": "C125", "title": "A run over past days, or until an end date, calls each function on each of its days", "statement": "With ENABLE_HISTORY_START or an end date, in every state of the process the calls of each run_daily entry are the first of the instants it is owed from its start (the start date of the context, or the moment of starting) to its end (the end date, or EVENT_DAYS_COUNT days), in order and to the function given; when the process has ended, nobody having told it to and nothing having failed, they are all of them; from midnight to midnight that is so many a day.", "quantifier": "all strategies, all start and end dates, all executions", "why_tests_cant": "The tests run one strategy over one month.", "anchors": ["jqtrade/scheduler/event_source.py:EventSource", "jqtrade/scheduler/strategy.py:Strategy", "jqtrade/scheduler/loop.py:EventLoop"]}
{"id": "C126", "title": "Exactly which time texts a schedule takes and what they mean", "statement": "A time text is taken exactly if it is 'open' or 'close'; one of these, '+' or '-', one to three groups of one or two digits and h, m or s, and possibly one line end, where of several groups with the same unit the last counts; or two or three whole numbers separated by ':' (as int() reads them: blanks around, a sign, single underscores between digits), hour below 24, minute and second below 60, none negative, anything after a third ':' being ignored. It then means that one time of day. Everything else is refused, with a ':' as ValueError, a well-formed offset from an unknown base as KeyError, and otherwise as InvalidParam. In live mode a task that does not use the account starts exactly if each of its times is one of these, a keyword, or every_minute with at least one minute in the market periods.", "quantifier": "all texts, all market periods, all strategies", "why_tests_cant": "The tests try a handful of times; the texts are infinitely many.", "anchors": ["jqtrade/scheduler/event_source.py:EventSource", "jqtrade/scheduler/event_source.py:TimeExprParser", "jqtrade/scheduler/strategy.py:Strategy.run_daily"]}
{"id": "C127", "title": "Batches with elements that are no orders", "statement": "batch_submit_orders returns exactly if its argument can be iterated to the end and every element is a dict. Otherwise it raises what the iteration or the element raised, AttributeError for an element without get() (None, a string, so also when a dict is given instead of a list); exactly the requests before that element have then been placed, each as order() places it, and none after it; their ids are not returned.", "quantifier": "all arguments, all gates, all account states", "why_tests_cant": "The tests pass lists of dicts.", "anchors": ["jqtrade/account/api.py:batch_submit_orders", "jqtrade/account/api.py:order"]}
{"id": "C128", "title": "Errors that are no Exceptions", "statement": "If a function raises something below BaseException that is no Exception (asyncio.CancelledError, KeyboardInterrupt raised by the code, a class of the user), the task process should end with this error, as it does for Exceptions (C06), or at least go on (C05). Neither holds: the loop is idle again, not stopped, nothing recorded; if the function pushed nothing and no wake-up is outstanding it then sleeps for good, with messages that are due, until another thread pushes something or a signal comes; the function's source is never called again even if the loop goes on; and run() ends later as if nothing had happened. What still holds: no callback is started before its time, and run() ends with the first Exception raised, if any.", "quantifier": "all handlers, all executions with any number of such errors", "why_tests_cant": "The tests raise Exceptions only.", "anchors": ["jqtrade/scheduler/loop.py:EventLoop.handle_message", "jqtrade/scheduler/loop.py:EventLoop.check_queue", "jqtrade/scheduler/event_source.py:EventSourceScheduler.schedule"]}
{"id": "C129", "title": "Timestamps and times as strptime reads them, every text", "statement": "For every text, parse_dt gives a time exactly if the text is: four digits, '-', month, '-', day, one or more white-space characters, hours ':' minutes ':' seconds, and nothing more or '.' and one to six ASCII digits, with a date that exists; the time is the one denoted, in one way only. Digits of other scripts are accepted in the year, as the only digit of hours, minutes and seconds, and as second digit where the first leaves the second free, but not in months and fractions; a one-digit day may follow a blank. Every other text gives ValueError. parse_time likewise for hours ':' minutes ':' seconds. On ASCII texts with no white space but at most one blank this is the simple reading of C67 and of the market periods.", "quantifier": "all texts, all sets of decimal digits that extend the ASCII ones", "why_tests_cant": "The tests parse two texts.", "anchors": ["jqtrade/common/utils.py:parse_dt", "jqtrade/common/utils.py:parse_time"]}
{"id": "C130", "title": "What each line of the broker's files does", "statement": "Whatever stands in the update and result files, a sync reads them line by line from the stored positions with exactly these outcomes. A heading line is passed over and the position moves behind it. A line with too few columns (also an empty one) ends the reading. One with too many is an error. An update line of an unknown order is passed over without moving the position. An update line of a known order sets status, time with confirmation id, filled amount, filled balance, cancelled amount, average price, message in this order up to the first that cannot be read, which is an error; no other order changes. A result line rejects the order it names if it is of type 1 with status 1 and does nothing else. With ignore_error_line an error moves the position behind the line and reading goes on; otherwise the sync fails with it, the position stays before the line and what was set stays set. These rules determine the outcome.", "quantifier": "all texts, positions, books and settings, all readings of times and numbers", "why_tests_cant": "The tests feed well-formed files.", "anchors": ["jqtrade/account/trade_gate.py:AnXinDMATradeGate.sync_orders", "jqtrade/account/trade_gate.py:AnXinDMATradeGate._update_order"]}
{"id": "C131", "title": "The times in the broker's update file", "statement": "The time of an order is the one the broker writes as date and time without separators, and is shown to the strategy as such. True if the time has two digits for each field, or one digit for an hour from 3 on. False for a smaller hour of one digit: 1:30:00 written 13000 is read as 13:00:00. Texts that are read have 9 to 14 characters and denote the time in one of the ways to cut them; all others are ValueError.", "quantifier": "all dates and times, all texts, all sets of decimal digits that extend the ASCII ones", "why_tests_cant": "The tests use one well-formed time.", "anchors": ["jqtrade/account/trade_gate.py:AnXinDMATradeGate._update_order"]}
{"id": "C132", "title": "The figures in the broker's files", "statement": "float() takes exactly the texts of Python's grammar (blanks, sign, digits of any script with single underscores, point, exponent, inf, nan in any case) and gives the nearest double; all others are ValueError. A figure of at most 3 (price) or 4 (value) decimals below 2^39 is kept exactly as written, the locked cash is then exactly the difference, and rounding again changes nothing. False without the bound, and for more decimals: the figure kept need not be the nearest one, and halves are rounded neither up nor to even.", "quantifier": "all texts, all sets of decimal digits that extend the ASCII ones, all values", "why_tests_cant": "The tests use a few figures with two decimals.", "anchors": ["jqtrade/account/trade_gate.py:AnXinDMATradeGate._update_order", "jqtrade/account/trade_gate.py:AnXinDMATradeGate.sync_balance"]}
{"id": "C133", "title": "Clock times in digits of other scripts", "statement": "A clock time written with decimal digits of any script (full-width ones, say) means the same as with 0 to 9; int() takes exactly the texts that are whole numbers when so written. The offsets of relative times are not taken in other digits. For texts without such digits all this agrees with the rest of the model.", "quantifier": "all texts, market periods, and sets of decimal digits that extend the ASCII ones", "why_tests_cant": "The tests use ASCII digits.", "anchors": ["jqtrade/scheduler/event_source.py:EventSource.add_event", "jqtrade/scheduler/event_source.py:TimeExprParser"]}
{"id": "C134", "title": "Orders with figures that are nan", "statement": "Syncing a second time with the same reports (one per order, all of which load) changes nothing and logs nothing. False with nan, which the gate reads from the text 'nan' in any case: an order with a nan figure is never equal to itself, so every sync puts a new object into the book, and one that is partly filled gets its notice again at every sync. Exactly these repeat; without nan (infinities included) nothing changes, and for finite figures the model is that of the other properties.", "quantifier": "all books, all lists of reports with one entry per order, all numbers of syncs", "why_tests_cant": "The tests have no order with a nan figure.", "anchors": ["jqtrade/account/order.py:Order.__eq__", "jqtrade/account/account.py:Account.sync_orders", "jqtrade/account/account.py:Account._notify_changed", "jqtrade/account/trade_gate.py:AnXinDMATradeGate._update_order"]}
{"id": "C135", "title": "Line breaks of the broker's files", "statement": "The result and update files are opened in universal-newlines mode: a line ends at '\\n', '\\r\\n' or '\\r'. Files with '\\r\\n' are read as the same files with '\\n', and a record is what stands between two '\\n'. False for a lone '\\r': one in a message splits the record, and its second half, being too short, keeps everything behind it from being read. False also when a sync sees a file between '\\r' and '\\n': the '\\n' is then a blank line, and nothing behind it is read.", "quantifier": "all texts of the files, all gate states, all options", "why_tests_cant": "The tests write files with '\\n' only, and write them at once.", "anchors": ["jqtrade/account/trade_gate.py:AnXinDMATradeGate.sync_orders"]}
{"id": "C136", "title": "Rows of the order and cancel files", "statement": "Read as a text file, the order file of a day is empty or has one row with the names of the columns and one row for each order written on that day, in order, and no other row; the cancel file likewise. This holds on POSIX when the texts hold no line break. It is false on Windows: os.linesep is written in text mode, which turns its '\\n' into '\\r\\n' again, so that every row is followed by an empty row. A reader that skips empty rows sees the table.", "quantifier": "all histories of orders, cancels, syncs, restarts, changes of clock and disk without torn writes; all options and both systems", "why_tests_cant": "No test runs on Windows, and none reads the order file back.", "anchors": ["jqtrade/account/trade_gate.py:AnXinDMATradeGate.order", "jqtrade/account/trade_gate.py:AnXinDMATradeGate.cancel_order", "jqtrade/account/trade_gate.py:AnXinDMATradeGate._write"]}
{"id": "C137", "title": "Whenever a live task sleeps it has called exactly what was due", "statement": "Whenever the loop of a live task process goes to sleep, each run_daily entry's function has been called for exactly the instants owed to it since the start and not after the clock, in order and once each, and the account has been synced for exactly the instants owed to the sync timer; the process ends only if told to or if a callback failed. (As long as owed instants of the days generated at start-up lie ahead, and the clock has not been set back.)", "quantifier": "all strategies, market periods, options, clocks, executions of the loop and running times of the functions", "why_tests_cant": "The tests run the loop over past days only; that nothing is missing or early at a sleep of a live process is a statement about every moment of every execution.", "anchors": ["jqtrade/scheduler/loop.py:EventLoop", "jqtrade/scheduler/event_source.py:EventSource", "jqtrade/scheduler/strategy.py:Strategy"]}
{"id": "C138", "title": "A function sees orders, money and positions as of the sync due before it", "statement": "When a scheduled function runs for instant x, or the loop goes to sleep, the orders the strategy sees are those the broker's files reported at one moment, and by that moment the order sync of every instant owed to the sync timer up to x (or up to the clock) had been made, unless that sync failed: each order shows what was ordered, the values of its last update line, rejected if a result line rejects it, and new if there is no line; likewise the money and positions seen come from balance reports the last of which was read when the balance syncs owed up to x had been made, unless those failed. (For orders: one day of a process, and files that meet the conditions of C36 whenever they are read.)", "quantifier": "all strategies, schedules, orders, cancels and further syncs of the strategy, all moments at which the files grow or a sync fails, and all executions of the loop", "why_tests_cant": "How old the shown orders are depends on the interleaving of loop, strategy and broker; no test runs a task process together with an account.", "anchors": ["jqtrade/account/account.py:Account.sync_orders", "jqtrade/account/trade_gate.py:AnXinDMATradeGate.sync_orders", "jqtrade/scheduler/loop.py:EventLoop"]}
{"id": "C139", "title": "Cancelling all open orders cancels exactly the open ones", "statement": "The example strategies' loop that cancels every order get_orders() shows as new or open, one by one or as a batch, sends exactly one cancel for each order that may still trade, in the order in which they came into the book, and none for any other; an order whose order() call returned None is not cancelled by passing that None on. Over a day with any syncs in between, demo_order.py sends those cancels, its order and the cancel of that order, nothing else; demo_order_minute.py sends each order and its cancel in turn.", "quantifier": "all accounts, gates, books and states of the broker's files", "why_tests_cant": "The examples are not run by the tests; that the loop over live objects sends no cancel twice and skips none is a statement about every book.", "anchors": ["jqtrade/account/api.py:get_orders", "jqtrade/account/api.py:cancel_order", "jqtrade/account/api.py:batch_cancel_orders", "tests/demo/demo_order.py:cancel_open_orders", "tests/demo/demo_order.py:do_order", "tests/demo/demo_order.py:do_cancel", "tests/demo/demo_order_minute.py:do_cancel", "tests/demo/demo_batch_order.py:do_cancel"]}
{"id": "C140", "title": "A task typed on the command line is the one started, listed, protected and stopped", "statement": "On a machine where every task was started with the documented words and no task is the parent of another: start_task loads the strategy file that was typed; while the task lives get_tasks lists it exactly once, with the name, file, log, environment and debug flag typed last; a second start with its name is refused without touching anything, and a start with a name no living task has is not refused because of the name; stop_task with its name signals it once, and no process that is not a task of that name.", "quantifier": "all process tables, command lines (options repeated, in any order), machines and values", "why_tests_cant": "The three commands are tested one at a time with mocked process tables; that what one of them records on the command line is what the others read from it, for every choice and order of options, is a statement about their composition.", "anchors": ["jqtrade/__main__.py:main", "jqtrade/scheduler/runner.py:TaskRunner.run", "jqtrade/__main__.py:start_task", "jqtrade/__main__.py:get_tasks", "jqtrade/__main__.py:stop_task", "jqtrade/scheduler/runner.py:_exist_repeated_task", "jqtrade/scheduler/utils.py:parse_task_info", "jqtrade/scheduler/utils.py:get_activate_task_process"]}
{"id": "C141", "title": "The commands about tasks work while processes come and go", "statement": "stop_task --all signals every task that keeps running, get_tasks shows every such task, and a start is refused only for a task of the same name, whatever other processes end, appear or refuse to be inspected while the command runs.", "quantifier": "all sequences of answers the processes of the machine may give, each question answered on its own, all options", "why_tests_cant": "Races between the listing of the processes, the second reading of their command lines and the signals do not happen with a mocked process table.", "anchors": ["jqtrade/scheduler/utils.py:get_activate_task_process", "jqtrade/__main__.py:stop_task", "jqtrade/__main__.py:get_tasks", "jqtrade/scheduler/runner.py:_exist_repeated_task"]}
{"id": "C142", "title": "An acknowledged order is never lost sight of", "statement": "Once order() has returned an id, then at every later time of the day, whatever orders, cancels, syncs, failures and restarts lie between: the order file holds the row that was asked for, the gate knows the order, the strategy is shown the order with the code, amount, direction and price it asked for and with what the broker last reported, and can cancel it.", "quantifier": "all orders, all lives of a process on one day after the call (failed writes and saves, growing broker files, syncs, restarts), all contents of the broker's files", "why_tests_cant": "The order passes through two files, a save file and restarts in any order; a test follows one path.", "anchors": ["jqtrade/account/account.py:Account.order", "jqtrade/account/account.py:Account.cancel_order", "jqtrade/account/account.py:Account.sync_orders", "jqtrade/account/trade_gate.py:AnXinDMATradeGate.order", "jqtrade/account/trade_gate.py:AnXinDMATradeGate._save_orders", "jqtrade/account/trade_gate.py:AnXinDMATradeGate._load_orders", "jqtrade/account/trade_gate.py:AnXinDMATradeGate.sync_orders"]}
{"id": "C143", "title": "What the README's example strategy does each minute", "statement": "The task do_order with which the README introduces the package never raises while the account module is loaded. Each run offers everything that can be closed of 000001.XSHE at 10, buys 100 of 000002.XSHE unless there is a position entry for it, and then cancels, once each, every order that was waiting and every order it has just placed; so none of its orders is left standing. Run n times with nothing reported in between it buys n times and sends the growing number of cancels; what the gate took of 000001.XSHE is not offered twice.", "quantifier": "all gates (any answers and failures), all reachable accounts, all ids and times, any number of runs", "why_tests_cant": "The example is never run by the tests; what it does depends on the positions, the book and the gate's answers.", "anchors": ["jqtrade/account/api.py:order", "jqtrade/account/api.py:cancel_order", "jqtrade/account/api.py:get_orders", "jqtrade/account/api.py:UserPositionDict.__getitem__", "jqtrade/account/portfolio.py:Portfolio.long_positions", "jqtrade/account/account.py:Account.on_order_created", "jqtrade/account/position.py:Position.on_order_created"]}
{"id": "C144", "title": "The attributes the README names show the account's figures", "statement": "Every attribute that the README names for orders, positions and the portfolio can be read of every such object a strategy can get, and is the figure of the account: get_orders()[id] shows under each name the field of the recorded order, an order just placed is shown as asked for, a position that is not held is shown with zeros, and none of it can be assigned to. The documented examples that use these attributes work.", "quantifier": "all reachable accounts, all gates, all ids, codes and names, all order() arguments of the right form", "why_tests_cant": "Tests read a few attributes of a few objects; a name that is documented but missing shows only when a strategy reads it.", "anchors": ["jqtrade/account/api.py:UserOrder", "jqtrade/account/api.py:UserPosition", "jqtrade/account/api.py:UserPositionDict.__getitem__", "jqtrade/account/api.py:get_orders", "jqtrade/account/portfolio.py:Portfolio", "jqtrade/scheduler/context.py:Context.portfolio"]}
{"id": "C145", "title": "A day of the README's example strategy", "statement": "With a disk that takes every write: when the loop of a live process goes to sleep after the end of a day, the README's do_order has run once for each instant of that day owed to its run_daily entry; the day's order file holds a header and exactly one line for each order those runs were to place, in that order and with its code, amount and style; and the day's cancel file has a line for each of them. With \"every_minute\" and the default market periods that is 242 orders for 000002.XSHE a day, each with a cancel on the same day, unless the balance shows a position in it.", "quantifier": "all configurations, strategies with do_order as one of their entries, schedules of the loop, days, broker files, balances, sync timings and ids; any number of days", "why_tests_cant": "It takes a whole day of a live process with a broker; no test runs the example.", "anchors": ["jqtrade/scheduler/strategy.py:Strategy.schedule", "jqtrade/scheduler/loop.py:EventLoop.check_queue", "jqtrade/account/api.py:order", "jqtrade/account/api.py:cancel_order", "jqtrade/account/trade_gate.py:AnXinDMATradeGate.order", "jqtrade/account/trade_gate.py:AnXinDMATradeGate.cancel_order"]}
{"id": "C146", "title": "What the texts of orders and positions tell", "statement": "The text of a UserOrder determines its id, code, amount, kind of style and price, status, action, side, filled amount, average price, deal balance, cancelled amount and creation time, and nothing else of it: orders that differ only in the reason of a rejection, the commission or the broker's numbers look alike. The text of a UserPosition determines the position. A dict of positions, as the README's example logs it, shows what the positions are, and the text of an order is closed by its bracket.", "quantifier": "all orders and positions whose texts have no comma, all ways to print figures that are injective, comma-free and never None; for the dicts: all dicts and addresses", "why_tests_cant": "No test looks at a text; a collision of two texts is a statement about all pairs.", "anchors": ["jqtrade/account/api.py:UserOrder.__str__", "jqtrade/account/api.py:UserPosition.__str__", "jqtrade/account/api.py:_UserObject.__repr__", "jqtrade/account/order.py:OrderStyle.__str__"]}
{"id": "C147", "title": "A task that is told to stop ends", "statement": "Once the loop was told to stop (by a signal, an error or the strategy) it starts no callback, makes at most ten steps of its own and two more for each message or signal that comes from outside, and can always go on until it has ended. From the arrival of a signal, if uv hands it over before it serves the queue again, there are at most fourteen such steps and two for each callback that is started (see C07 for these). Told in its sleep the task calls nothing more: a live task has then called exactly what was owed when it fell asleep.", "quantifier": "all callbacks that return, states of the loop, orders in which uv serves what is pending, clock readings, and actions of other threads", "why_tests_cant": "It is a bound on all schedules of the loop; a test sees one.", "anchors": ["jqtrade/scheduler/loop.py:EventLoop.stop", "jqtrade/scheduler/loop.py:EventLoop.handle_signal", "jqtrade/scheduler/loop.py:EventLoop.check_queue", "jqtrade/scheduler/loop.py:EventLoop.run"]}
{"id": "C148", "title": "The context object shows the task's time, the clock and the portfolio", "statement": "Whatever user functions have stored on the object context: in a task strategy_dt is the instant the task was due, current_dt is the clock and is not before strategy_dt unless the clock was set back since the task started, and portfolio is that of the account made by the last set_options, or InvalidCall if the account is not enabled; use_account is False unless it is given. The three can be neither assigned nor deleted. Any other attribute is what process_initialize or a task last made it. During process_initialize strategy_dt is None. The trading functions use the same Context.", "quantifier": "all sequences of attribute assignments and deletions, set_options and run_daily calls, process states, clock readings and time zones of whole seconds", "why_tests_cant": "The attributes are read in all states of a process that may run for months; a test reads them in a few.", "anchors": ["jqtrade/scheduler/api.py:UserContext.strategy_dt", "jqtrade/scheduler/api.py:UserContext.current_dt", "jqtrade/scheduler/api.py:UserContext.portfolio", "jqtrade/scheduler/context.py:Context.get_instance", "jqtrade/scheduler/context.py:Context.portfolio", "jqtrade/scheduler/strategy.py:Strategy.set_options"]}
{"id": "C149", "title": "The options of the trade gate have the documented effect and defaults", "statement": "After AnXinDMATradeGate.setup returned, each option the README documents has the value that set_options gave, or else the README's default; it returns exactly if the order directory exists, the data directory is there or can be made, and sync_retry_kwargs is a dict of known arguments, and adds one retrying wrapper then and none if it raises. Counter type, account and algorithm are those in the line of every order; an account type other than STOCK makes every order be refused; a strategy without an account number is refused.", "quantifier": "all dictionaries of options and their values, file systems, earlier states of the gate, and orders", "why_tests_cant": "Each option has many possible values and combinations; tests set one or two.", "anchors": ["jqtrade/account/trade_gate.py:AnXinDMATradeGate.setup", "jqtrade/account/trade_gate.py:AnXinDMATradeGate.order", "jqtrade/common/utils.py:simple_retry"]}
{"id": "C150", "title": "Right after set_options the strategy sees its account as of that moment", "statement": "When set_options returns with the account enabled, the strategy works with a new account and a gate that was just set up, brought up to date by a balance sync and then an order sync: money and positions are those of the day's files, also where a figure is 0; the orders an earlier process of the task saved that day are known again as they were asked for, with what the broker says of them by now, and no change made in between is announced. With use_account off nothing is read and the account functions refuse to work. Account data that was not synchronised is never seen, and a call that raises has no effect.", "quantifier": "all options, gates, files and histories of the day before the call, and outcomes of loading, directories and gate set-up", "why_tests_cant": "The outcome depends on the files left by earlier processes and on which part of the set-up fails.", "anchors": ["jqtrade/scheduler/strategy.py:Strategy.set_options", "jqtrade/scheduler/strategy.py:Strategy.setup_account", "jqtrade/account/account.py:Account.setup", "jqtrade/account/account.py:Account.sync_balance", "jqtrade/account/account.py:Account.sync_orders"]}
{"id": "C151", "title": "A function scheduled a few seconds ahead is called then", "statement": "The example strategies schedule functions by run_daily(f, (now + delay).strftime('%H:%M:%S')). Such a function is called first at that moment (to the whole second) if its event source is set up by then, and every day after that at the same time of day, once each; a delay that crosses midnight is honoured too. At every sleep of the process it has been called for exactly the days whose moment has come. Whatever is scheduled seconds ahead is called that day.", "quantifier": "all live processes, clocks, delays below a day, and states of the process", "why_tests_cant": "Whether the call comes today or tomorrow depends on how long the rest of process_initialize takes and on fractions of a second.", "anchors": ["jqtrade/scheduler/strategy.py:Strategy.run_daily", "jqtrade/scheduler/strategy.py:Strategy.schedule", "jqtrade/scheduler/event_source.py:EventSource.setup", "tests/demo/demo_order.py:process_initialize", "tests/demo/demo_order_minute.py:process_initialize"]}
{"id": "C152", "title": "The log can be read back and sorted", "statement": "From the text of a task's log every entry can be read back: its time to the microsecond, its level, the process, the part of the program and the message; no two logs with different entries have the same text. Sorting the lines of any number of logs as texts sorts the entries by time.", "quantifier": "all sequences of entries, times in years of four digits, process ids, logger names and messages", "why_tests_cant": "That no message can be taken for something else is a statement about all messages; dates of all months and years take part in the order.", "anchors": ["jqtrade/common/log.py:SystemLogFormatter.formatTime", "jqtrade/common/log.py:setup_logger", "jqtrade/common/log.py:setup_file_logger"]}
{"id": "C153", "title": "The strategy's time in the log", "statement": "After set_log_context every line of every handler that is installed shows the time of the context given last, whatever contexts were given before, and who gets an entry does not change; entries and strategy times can be read back from the text; handlers installed later write lines without it.", "quantifier": "all sequences of handler installations and contexts, all entries, clocks of the contexts and strategy times in years of four digits", "why_tests_cant": "The tests give a context per strategy and look at no line; the filters of all earlier contexts stay and run for every later record.", "anchors": ["jqtrade/common/log.py:set_log_context", "jqtrade/common/log.py:SystemLogFormatter.formatTime", "tests/test_strategies.py:run_strategy"]}
{"id": "C154", "title": "What the package says of itself when it is installed", "statement": "Installation asks for exactly the entries of requirements.txt, whatever its line breaks, blank lines and blanks around entries; version, author and address are the texts jqtrade/__init__.py gives; version_info holds the numbers of the version.", "quantifier": "all texts of requirements.txt, all versions of numbers and dots, all names left by jqtrade/__init__.py", "why_tests_cant": "No test runs setup.py; only one requirements.txt and one version exist.", "anchors": ["setup.py:_parse_requirement_file", "setup.py:get_package_info", "setup.py:author", "jqtrade/__init__.py:version_info"]}
{"id": "C155", "title": "A log file holds the logs of all the tasks that write to it", "statement": "After any starts and log calls of any number of task processes, in any order, a log file holds what it held before and then one line for each entry from INFO (with --debug, DEBUG) on of the processes started with that file, in the order of the calls; a restart keeps what is there; what one process logged can be picked out by its number.", "quantifier": "all sequences of starts and log calls of all processes, all file names, messages and levels, all former contents of the files", "why_tests_cant": "Tests start one process; sharing a file, restarts and levels combine without end.", "anchors": ["jqtrade/common/log.py:setup_file_logger", "jqtrade/common/log.py:setup_logger", "jqtrade/scheduler/runner.py:TaskRunner.__init__"]}
{"id": "C156", "title": "Options left out have the documented defaults", "statement": "A strategy that leaves options out of set_options runs as one that gives the README's defaults: it starts or fails alike, with the same events, callbacks and account, and calls the same functions at the same instants in every execution. This holds with use_account=True for that option; the README's default False is not the one in force.", "quantifier": "all process_initialize functions with any set_options and run_daily calls, all option values, clocks, times and executions of the loop", "why_tests_cant": "Tests set all options; which are left out, the order of the calls and failures half way combine without end.", "anchors": ["jqtrade/scheduler/strategy.py:Strategy.set_options", "jqtrade/account/account.py:Account.setup", "jqtrade/scheduler/config.py:SchedulerConfig"]}
{"id": "C157", "title": "A gate that changes the orders it is given cannot disturb the account", "statement": "The account gives a trade gate its own Order objects. Whatever a gate writes into them, in order(), later or in a thread of its own, as long as order() leaves code, amount, action and side alone, the strategy gets the same ids, and positions, money, known orders and calls to the gate are those of a gate that writes nothing; after an order sync the book has the reported figures; and what is told about the orders is the same.", "quantifier": "all trade gates, all changes to any objects at any time, all sequences of orders, cancels, syncs and outside events", "why_tests_cant": "Tests use gates that leave the objects alone; what a user's gate does with them cannot be enumerated.", "anchors": ["jqtrade/account/account.py:Account.order", "jqtrade/account/account.py:Account.sync_orders", "jqtrade/account/trade_gate.py:AbsTradeGate.order"]}
{"id": "C158", "title": "Process numbers that are used again do not make stop_task hit other processes", "statement": "Whatever process numbers are given to new processes and when, stop_task signals only a process that was there when the processes were listed and whose own command line speaks of jqtrade and start_task, has the number (--pid) or the name (--name) asked for; get_tasks shows each task's own command line; and the tasks asked for are stopped.", "quantifier": "all process tables at every moment, all reuse of numbers, all options, all moments at which the questions are put", "why_tests_cant": "Reuse of a number between two questions cannot be arranged in a test.", "anchors": ["jqtrade/scheduler/utils.py:get_activate_task_process", "jqtrade/__main__.py:stop_task", "jqtrade/__main__.py:get_tasks"]}
{"id": "C159", "title": "Order and cancel files are written in the encoding asked for", "statement": "In every file_encoding that gives each character bytes of its own, an order or cancellation either has all its characters in the encoding, and then everything happens as with texts and the bytes read in that encoding are the text; or it lacks one, and then the call fails with nothing written, kept or saved. An account number with such a character never gets an order out. Lines of ASCII characters are the same bytes in all encodings over ASCII, so processes with different encodings can share a file. A reader with the gate's encoding can read the file whatever encodings earlier processes used.", "quantifier": "all encodings (UTF-8, Latin-1 and ASCII spelled out), texts, options, orders, gate states and sequences of calls", "why_tests_cant": "Encodings and characters cannot be enumerated; tests use one locale.", "anchors": ["jqtrade/account/trade_gate.py:AnXinDMATradeGate._write", "jqtrade/account/trade_gate.py:AnXinDMATradeGate.order", "jqtrade/account/trade_gate.py:AnXinDMATradeGate.cancel_order"]}
{"id": "C160", "title": "The save file's JSON text gives back the orders", "statement": "Whatever texts and numbers the orders hold, json.dump writes ASCII only, so the locale's encoding does not matter, and json.load of the file gives the same orders in the same order; a file cut short anywhere, or with anything but white space added at its end, is refused as a whole; a text is read as a set of orders just if the JSON grammar says so, however it is laid out and its strings are escaped; saving fails just if some price is of a type JSON does not know; and the gate's model, which keeps the orders themselves in the save file, agrees with the text.", "quantifier": "all orders, texts (quotes, control characters, characters beyond 0xFFFF), numbers of the JSON grammar, places to cut the file, encodings over ASCII", "why_tests_cant": "Texts and cuts cannot be enumerated.", "anchors": ["jqtrade/account/trade_gate.py:AnXinDMATradeGate._save_orders", "jqtrade/account/trade_gate.py:AnXinDMATradeGate._load_orders", "jqtrade/account/order.py:Order.json"]}
{"id": "C161", "title": "The encoding of the balance's files", "statement": "The two balance files are read as UTF-8, with or without a byte order mark, whatever file_encoding says: a UTF-8 file gives the balance of its text and so does an ASCII file in any encoding over ASCII; if a file is not UTF-8, anywhere in it and also in the rows of other accounts, the sync fails and the account stays as it was.", "quantifier": "all files as bytes, accounts, number formats, encodings over ASCII, gate states", "why_tests_cant": "The tests have no balance file with characters beyond ASCII; bytes cannot be enumerated.", "anchors": ["jqtrade/account/trade_gate.py:AnXinDMATradeGate._read_csv", "jqtrade/account/trade_gate.py:AnXinDMATradeGate.sync_balance"]}
