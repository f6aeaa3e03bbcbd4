# Formal model of jqtrade in Rocq (Coq 8.16.1): design

The code under study is `/repo` (Python, package `jqtrade`).  It is read as text
only.  The model is a set of total, computable Gallina functions that mirror the
Python functions branch by branch; exceptions are values.  Theorems about the
model are stated against small, separate specification files.

## Layout of `rocq/theories`

| prefix | content |
|---|---|
| `Py*.v` | Python built-ins used by the code: exceptions/results, insertion-ordered dict, strings as lists of code points (`split`, `strip`, `lstrip`, `replace`, `startswith`, `int`, ...), stable sort, `heapq` |
| `M*.v` | the model, one file per Python module; each definition cites file and lines |
| `S*.v` | specifications, independent of the model's helpers |
| `L*.v` | lemmas and proofs |
| `T*.v` | the property theorems only: statement, `exact lemma`, `Print Assumptions`, and a concrete `Example` meeting the hypotheses |

## Conventions

* Naming.  `Cnn_...` is a theorem for property `Cnn`.  `..._partial` proves a
  restricted form (the restriction is a visible hypothesis; what is missing is in
  the comment).  `..._refuted` shows that the full statement is false of the
  faithful model, with a concrete witness.  A refuted property has status
  `partial` in `MANIFEST.json`, with the strongest restricted theorem beside it.
* Time.  Datetimes are integers (microseconds since 1970-01-01 of naive local
  time), days are integers, a time of day is microseconds since midnight.  One
  fixed UTC offset is a parameter; daylight-saving shifts, leap seconds and the
  `datetime` year range 1..9999 are not modelled.
* Strings are lists of Unicode code points (`list N`).
* Floats never enter arithmetic that matters: prices are carried as values,
  broker floats are parsed by an oracle.  `dt_to_milliseconds` is modelled in
  exact arithmetic.
* Everything the environment decides (clock readings, order of wake-ups, file
  growth, crash points, random ids, outcome of user callbacks, float/date parsing)
  is an explicit argument or label, universally quantified in the theorems.
* `while` loops that may diverge take fuel; running out of fuel is a distinct
  result (`None`/`OutOfFuel`), never a normal-looking value.

## Trusted base

1. The Coq 8.16.1 kernel (`coqc`; `vm_compute` is used for closed examples and witnesses,
   `native_compute` is not).
2. Assumptions.  Every property theorem is followed by `Print Assumptions`; each prints
   *Closed under the global context*.  No axioms are added.  `coqchk -o` lists the seven
   constants of `Coq.ssr.ssrunder.Under_rel`; they belong to the standard library, are
   loaded because `lia`/`ssreflect` files are, and no theorem depends on them.
3. The reading of the code.  The model was written from the text of `/repo`; the code was
   not run.  Each definition in `M*.v` cites the file and lines it models.
4. The specifications `S*.v` and the statements in `T*.v`.
5. The models of things that are not jqtrade code, written from their documentation and
   source as remembered: Python's `dict`, `str`, `int()`, `sorted`, `heapq`, `isinstance`,
   `str.format`-free string operations, `datetime`/`strptime`/`strftime` on the formats
   used (in `MStrptime` the regular expressions of `_strptime` for all texts), `re.match`
   for the one pattern used, `argparse` (prefix matching, `--x=v`, `-xv`,
   negative numbers), `json.dump` failing half way and its escapes (`MJson`), `repr` of floats being read back, `os.rename`/`shutil.move`,
   `portalocker` advisory locks, appending writes (atomic on POSIX, not on Windows),
   buffering of text files, `pandas.read_csv` (its tokenizer in `PyCsv`), `pyuv` (`Async`
   coalesces notifications, a `Timer` fires at some moment after being armed — in `MTimer`:
   when libuv's millisecond clock has advanced by the truncated product `timeout * 1000` —,
   signals are delivered between callbacks, an error leaving a callback is printed and the
   loop goes on), `psutil` (process table, command lines, access errors,
   the comparison of starting times before a signal).

### Oracles (explicit, universally quantified arguments)

Clock readings; the order of uv callbacks; what other threads and processes do; crash
points; random order ids; the outcome of user functions; file growth between reads;
parsing of floats by pandas (for float() and strptime there are concrete instances, `MNumber` and
`MCompact`); process tables.  `tz`, the UTC offset, is one constant.

## What is modelled

| file | modelled in | left out |
|---|---|---|
| `scheduler/queue.py`, `message.py` | `MQueue` over `PyHeap`; `MThreads` (threads, lock, message counter) | in `MQueue` operations are atomic (C63 justifies this); outside `MThreads` messages are created by one thread (C64) |
| `scheduler/loop.py` | `MLoop`; `MTimer` (float waits, real clocks); `MEscape` (errors below `BaseException`) | `SystemExit`, failures inside pyuv, log output |
| `scheduler/event_source.py` | `MTimeExpr`, `MWide` (digits of other scripts), `MEventSource`, `MToday` (every reading of the date), `MSched`, `MResched` | state after a raise |
| `scheduler/bus.py` | `MBus`; `MEmit` (callbacks that change the bus) | in `MBus` callbacks do not (un)register while an event is delivered |
| `scheduler/strategy.py`, `event.py` | `MStrategy`, `MProcess`, `MEnable` (`set_options` as a whole) | objects without `__module__` |
| `scheduler/context.py` | `MApi` (account access), `MStrategy`, `MCtx` | plain getters |
| `scheduler/api.py` | `MUtils` (`strategy_print`), `MCtx` (`UserContext`) | names that every object has |
| `scheduler/config.py`, `account/config.py` | `MUtils` | executing the configuration file: its module attributes are given |
| `scheduler/loader.py` | `MUtils` | namespace packages; running the user module: its attributes are given |
| `scheduler/utils.py`, `runner.py`, `__main__.py` | `MTasks`, `MGetTasks`, `MVanish` (processes that end meanwhile), `MReuse` (reuse of pids), `MUtils`, `MStart`, `MMain` (on `PyArgs`), `MProcess` | outside `MReuse` pids are not reused |
| `common/utils.py` | `MTime`, `MDate`, `MUtils`; `MRetry` (errors of all kinds); `MStrptime` (strptime on every text); `MFloat` over `PyFloat` (float rounding); `MZone` (offsets that change) | in `MTime` float arithmetic is exact (C86 justifies this for whole seconds) |
| `common/exceptions.py` | `PyBase` (`exn`) | |
| `common/log.py` | `MLog`, `MLine` (texts), `MLogCtx` (`set_log_context`), `MLogFile` (files shared by tasks); order notices are also recorded in the account's log (C29) | handlers that are not StreamHandlers |
| `account/order.py` | `MOrder`, `MNanOrder` (nan and infinite figures) | NaN and infinite amounts |
| `account/position.py`, `portfolio.py`, `account.py` | `MAccount`, `MViews` (Position objects), `MStrategy` (sync timer), `MEnable` (set-up), `MAlter` (gates that change the Order objects they are given) | |
| `account/api.py` | `MApi`, `MBatch`, `MUser` (attributes of UserOrder and UserPosition), `MShow` (their texts) | how Python prints floats (a parameter of `MShow`) |
| `account/trade_gate.py` | `MGate` (orders, updates), `MNotice` (rejected cancels), `MWriter` (concurrent `_write`), `MEncode` (encoding of the order and cancel files), `MJson` (text of the save file), `MBalBytes` (bytes of the balance files), `MLock` (waiting in `_write`), `MPersist`, `MPersist2` (crashes, unreadable save file), `MFiles` (file names), `MBalance` (csv), `MCsv` (csv with quotes), `MFolio` (the gate as a whole; NaN figures taken for 0), `MNan` (NaN cash figures), `MMidnight` (clock read more than once), `MCodec` (bytes and encodings of the update and result files), `MGrow` (files growing during a sync), `MDir` (several tasks), `MCompact` (order times), `MNumber` (float() and round() of its figures), `MNewline` (`\r\n` and lone `\r`), `MSetup` (options) | lone `\r` in the csv files of the balance |
| `tests` | reproduced on the model in `TTests` (evaluations; the run of `strategies/schedule.py` is a theorem) | test_thread_safe_q (see C63), uuid4; of `tests/demo` only the functions that order or cancel (`MDemo`, `MDemo2`) and the times asked for (`MSoon`) are modelled; of the README's example the task `do_order` (`MReadme`) |
| `setup.py`, `jqtrade/__init__.py` | `MInstall` (requirements, version, author) | setuptools itself; the long description |

Simplifications specific to a definition are stated in its comment.

## Findings

Behaviours of the code found while modelling or proving.  Those with a property have a
`_refuted` theorem whose witness shows them.

Scheduling
* C07: after SIGTERM arrives, the callbacks already due still start, however many.
* C08/C52: `dt_to_milliseconds` counts the sub-second part twice, so such a task runs late
  by its fraction; C03: and tasks may then run out of order; C86: float rounding may take away
  one millisecond of that, and shows datetimes from 2242 on off by microseconds.
* C09: a task that crosses midnight (`close+10h`) is lost at one end of the window.
* C10, C90: in live mode the 365th day is generated twice, so its tasks run twice; and again
  every 364 days.
* C90: with ENABLE_HISTORY_START and no end date the days are generated only once: the
  process ends by itself EVENT_DAYS_COUNT days after its start date.
* C11: a live source without entries makes start-up hang (every_minute with no minute in
  the market periods; sync timer started within one interval of 23:59:59).
* C13: a repeated unit silently overrides; a trailing newline is accepted; an unknown base
  raises KeyError; an empty `market_period` raises IndexError.  Absolute times accept more
  than `HH:MM[:SS]` (spaces, signs, underscores; further `:` parts are ignored).
* C14: `every_minute` truncates a sub-second period start.
* C16: two functions of one name: the last one runs for both; a lambda is never found.
* C17: `EventSource.daily()` on a scheduled source never returns.
* C19: the sync timer covers only the time of day after start-up, on every day.
* C87: instants at which no process of the task is up are never made up for; a clock set back
  before a restart repeats calls.
* C88: the timer waits in monotonic time: a wall clock set forward, or a suspended machine,
  makes the next message late by as much.  Rounding shortens some waits by a millisecond (1001 ms),
  so that the loop wakes up, finds the message not due and sleeps again.
* C94: a time skipped by summer time runs as much later, so out of order: the minutes of the
  skipped hour delay those of the next one, which then all run at once.  A process started
  in a repeated hour runs the tasks still to come in that hour at once.
* C95: nothing is dropped when calls take longer than the time between them: each further
  call starts later than the one before, without a limit and without a warning.
  After 365 days the calls of the last day are made again after its last one, so all late.
* C99: a process that has nothing to run (no `run_daily`, or all its events lie before its
  start) does not end: the check for an empty queue is only made after something was queued.
* C75: `run_daily(f, '25:00')` is accepted; start-up fails later, after the account is set up.
  `'9:30:00:xyz'` is taken as 9:30.
* C77: `set_options` that fails while setting up the account leaves its options in force
  and the account enabled; C78: a second `set_options` forgets all options of the first.
* C76: a callback that unregisters itself during `emit` makes the next one be skipped; one
  that registers for a new event class ends the delivery with RuntimeError.
* C61: each source reads the clock in its own `setup()`; when the time two functions share
  falls between the two readings, their order is reversed from the next day on.
* C148: after a failed and caught `set_options(use_account=True)` `context.portfolio` is None; the README
  says that use_account is off by default, it is on (C156).
* C55: n calls `set_options(use_account=True)` leave n account objects syncing, each on the events of n timers; if a
  later call fails in the gate's set-up, the strategy's account is one that nothing syncs.
* C64: `Message._unique_num += 1` is not atomic: messages created in several threads can share
  a number; pushing two that tie raises TypeError and leaves the message queued.

Account
* C93: a position object the strategy keeps follows its own closing orders until the next
  balance sync, then shows old figures for ever; selling by it afterwards oversells.
* C20: the separator in a code is not checked (`600000_XSHG` passes).
* C21: orders with side `short` are submitted as long orders.
* C23: when the gate fails, `order` returns None but the order stays in the book, and may
  have been submitted.
* C28: a change of only the error message is ignored.
* C30: a reported zero keeps the previous cash value; a bad position drops all of them.
* C113: a cash cell left blank makes the cash nan (`nan or old` is nan), and a reported 0 does not undo it.
* C97: of two records about one share only the last is shown, not the sum.
* C98: a balance sync right after a sell reads the file written before it, so the sold shares are
  closeable again; an order whose saving failed is in the order file, yet its shares stay closeable.
* C157: a trade gate that notes the status in the Order object it is given keeps the end of that order from being
  told; one that changes the amount changes what is taken from the position.
* C32: `position_value` raises AttributeError once there is a long position.
* C96: the order books of account and gate keep every order until the process ends; each sync
  goes through all of them and writes all of them to the save file.
* C33: order ids are 32 random bits without a check for repetition.
* C54: `batch_submit_orders` without account returns Nones.
* C127: an element that is not a dict makes `batch_submit_orders` raise after the earlier orders were placed; their ids are lost.
* C128: an error that is no `Exception` (e.g. `asyncio.CancelledError`) neither ends the process nor is reported: the loop may sleep for good with calls due, and the function is never called again.
* C143: the README's example task cancels, at the end of each run, the orders it has placed in
  that same run, so none of them is left standing; while 000002.XSHE is not reported as held it
  buys again every minute.
* C144: the README names the attributes `code` and `locked_amount` of a position; neither exists
  (the code is `security`). Its loop `for _order in get_orders()` goes over ids and raises. The
  examples `demo_sync` and `demo_order_minute` read `portfolio.total_assert`, which does not exist.
* C146: the README's log line of the positions shows codes and object addresses only (`_UserObject`,
  which has the `__repr__`, is a base of no class); the text of an order has its closing bracket in
  the middle and does not show why an order was rejected.
* C139: the examples' `cancel_open_orders` leaves partly filled orders trading, and repeats its
  cancels if run again before the next sync; `demo_order.py` ends with a KeyError if `do_cancel`
  comes before the first `do_order` (possible, see C151).
* C65: a report with two different entries for one order gives its notices at every sync.
* C66: a broker that takes back a final status causes a second notice of the order's end.

Trade gate
* C22: commas in account, options or id, and text prices, break the order line.
* C34: two writers that open the new file together both write a header (`tell()` is
  evaluated before the lock; the lock is released before the text is flushed).
* C80: after a write that stops half way the next line is glued to the torn one, and its order
  is acknowledged all the same.
* C101: with several tasks in one directory the glued line may be another task's order.
* C81: the first order sync of a process is silent about rejected cancels, also of cancels sent
  by this very process before the broker's files existed.
* C82: a daily order whose write fails is missing from the order file and is not submitted later.
  On the 365th day (and every 364 days from there) each daily order is submitted twice.
* C83: the date is read again for every file name, so a call that overlaps midnight can stamp a
  line for one day and write it to another, or combine files of two days.
* C161: the balance files are read as UTF-8 whatever `file_encoding` says; a file with one other byte, even in the
  row of another account, makes every sync of the balance fail.
* C160: a text with a high and a low surrogate side by side (not possible for decoded files) comes back from the
  save file as one character.
* C159: an account number with a character `file_encoding` lacks makes every order fail with UnicodeEncodeError;
  after a change of `file_encoding` during the day, an order file with non-ASCII characters cannot be read.
* C84: `execResult` is opened without `file_encoding`, so the message of a rejection is garbled if
  the locale's encoding is not the broker's; with bad lines ignored, one undecodable byte makes
  the sync skip everything that is new in the file.
* C85: the result file is read before the update file, so a sync can show a fill, but not the
  rejection of another order that came before it.
* C36, C37: a line seen before its line break, a short line, an empty line or a torn
  header stops the reader for the rest of the day.
* C79: a short line about anybody's order stops every task that reads the broker's files; with
  `ignore_error_line` off a comma in the text of another task's line makes every sync fail.
* C38: a line with a bad time is skipped but has already changed the status.
* C39: an order both rejected and updated ends differently after replay.
* C129: timestamps with digits of other scripts, several white-space characters (tabs, line
  breaks) between date and time, or a blank before the day are accepted.
* C131: an order time whose hour is 0, 1 or 2 without a leading zero is misread (`13000` is 13:00:00,
  not 1:30:00); no error is raised.
* C132: an average price of 0.0055 is kept as 0.005 and one of 0.0005 as 0.001 (binary rounding); above
  5 * 10^11 the last decimal of a deal balance can change.
* C136: on Windows every line of the order and cancel files is followed by an empty line (`os.linesep`
  written in text mode).
* C135: a carriage return in an error message of the broker, or a sync that sees a file between `\r`
  and `\n`, keeps the lines behind it from being read for the rest of the day.
* C134: a partly filled order whose average price or deal balance is `nan` in the broker's file is
  announced again, and its object replaced, at every sync.
* C40: read positions are kept when the file of the next day is opened.
* C41, C42: on Windows `shutil.move` copies, so a crash can tear the save file; a kill
  between the line and the save leaves a submitted order nobody knows of.
* C43: one price that JSON cannot represent makes every later sync fail.
* C44: records with an empty first field are taken for the end mark.
* C89: two names that start with a quote merge the records between them: the first share is
  reported with the amount of the second, which is missing from the report.
* C45: the save file is named by the day of set-up, so a restart on a later day misses it.
* C68: a restarted process whose broker files are missing shows none of the saved orders.
* C69: the lock time-out is checked once per polling interval and against a clock that may be
  set back, so the wait may be longer than configured.
* C70: a failure to read the save file is swallowed; the sync at start-up then overwrites the
  file, so the orders saved in it are lost for good.
* C149: `sync_retry_kwargs={"max_attempts": 5}` makes the wait 0.1 s, not the documented 0.15 s; the set-up
  does not look at the account number, so an empty one is only noticed when orders are refused.
* C150: `set_options` returns although its first syncs failed, and the account then shows nothing; a call that
  raises because `account_no` is missing leaves the account enabled, one whose gate set-up fails replaces the
  account known so far by an empty one.
* C151: event sources start from the clock at their set-up, after all of `process_initialize`. A function the examples
  schedule "in 5 seconds" is called a day later if the rest of `process_initialize` (e.g. a `set_options` after it) takes longer;
  the first order of `demo_order_minute.py` (delay 0) practically always is.
* C71: task names are not checked: `../data/a` uses the save file of `a`.
* C72: with `runtime_dir="~/x"` the directory is created below the home, but the orders are
  saved in `./~/x/data`, which depends on the working directory.
* Not a property: the documentation calls a balance entry `total_assert`, the code reads
  `total_asset`; on Windows `os.linesep` in text mode writes `\r\r\n`; `demo_sync.py` and
  `demo_order_minute.py` (and README.md:702) use `context.portfolio.total_assert`, which does not exist,
  so as they stand they end in `process_initialize`.

Command line
* C102: every gate set-up wraps the retried functions again; the bound multiplies.
* C47, C49, C73: a task started with `--name=x` makes later commands fail with KeyError.
* C152: a message with a line break looks like several log entries; strategies and `logger.exception` write such
  messages.
* C154: `author` in `setup.py` is a tuple: the line ends in a comma.
* C153: each `set_log_context` adds a filter to every handler and removes none: in a test run every record asks the
  contexts of all tests so far, and keeps them alive; its lines have a comma where the others have a full stop, so the
  two kinds do not sort together.
* C74: a level set by the strategy with `log.setLevel` works on the standard output but not in a
  log file.
* C141: a task that ends between being listed and its turn makes stop_task, get_tasks and the
  check of an unrelated start fail with NoSuchProcess; the tasks after it are left running.
* C158: if the number of an ended task goes to another program between two questions, get_tasks shows that program or
  fails, and `stop_task --name` fails before it stops the task asked for.
* C142: after a restart, until a sync has succeeded, acknowledged orders are not shown and
  cancelling them does nothing.
* C48, C49: any process whose command line mentions both words counts as a task (an
  editor, `sh -c`); `stop_task --all` signals it; parents of tasks are never signalled.
* C50: environment values may not contain `=`, nor the text end with `;`.
* C51: `lstrip` strips letters, so settings such as RUNTIME_DIR, TRADE_GATE,
  EVENT_DAYS_COUNT, ENABLE_HISTORY_START and SETUP_ACCOUNT can not be overridden.
* C57: a strategy file named like an imported module runs that module instead.
* C91: a start refused because of `--env` or `--config` leaves an empty log file; `~` in
  `--config` means the HOME given with `--env`.
* C92: `-V` before a command prints the version and the command does not run; the program
  without a command fails with AttributeError; `stop_task -n NAME -p PID` ignores the name,
  and `--all` (also `--a`) ignores both.

## Testing the theorems

`seeded/LOG.jsonl` records wrong programs: each line names a model definition, the edit
made in a scratch copy, the claim it breaks, the theorems that then failed to check, and
the theorems tightened when none did.

## Plan per property

(H = was expected to hold; R = the code was expected to violate the full statement.  This
is the plan as first written; the outcome of each property is in `MANIFEST.json`.  Three
expected H turned out to be R after all, in corners: C09 (tasks crossing midnight), C14
(sub-second market periods), C18 (a callback registered twice); likewise C03, C15, C17,
C22, C44, C53, C54.)

| id | modelled | how it is proved |
|---|---|---|
| C01 H | `queue.py` over a model of CPython `heapq` (array sift-up/down) | heap invariant + permutation, refinement to a sorted multiset over all op sequences |
| C02 H | `loop.py` as a labelled transition system (labels = wake-ups, clock readings, signals, pushes, callback outcomes) | invariant over all label sequences |
| C03 H | loop + `EventSourceScheduler` + sources | invariant: last dispatched key <= every queued key; one outstanding message per source |
| C04 H | same | ghost trace: dispatched ++ remaining = stream |
| C05 H | loop LTS with async flag and timer deadline | inductive invariant |
| C06 H | loop LTS | invariant |
| C07 R | loop LTS with pending signals delivered only between callbacks of the uv loop | witness: two due messages; partial: at most the backlog drained by the current `check_queue` |
| C08 R | loop + time conversion | partial for whole-second datetimes, witness for sub-second |
| C09 H | `event_source.py` | pending-stream lemma; equality with the spec list |
| C10 R | same, live mode | partial for the first 365 days; witness/general lemma for the replay of day 365 |
| C11 R | same | partial: terminates when some task is in range; refuted for empty task lists (all fuels) |
| C12 H | same | idempotence of `gen_events` |
| C13 R | `TimeExprParser` on strings | exact characterisation of the accepted language; witnesses for repeated units and unchecked base |
| C14 H | `Strategy.schedule` loop | closed form of the loop |
| C15 H | `Strategy` state machine | induction over call sequences |
| C16 R | schedule + class registry + bus | partial for functions resolvable by name; witness for aliased function |
| C17 R | `on_events_changed` iterating a growing list | every fuel is exhausted |
| C18 H | `bus.py` | refinement to a list of registrations |
| C19 R | `_setup_sync_timer` | first-day coverage partial; later days refuted |
| C20 R | `api.order` checks | exact accepted set; separator character unchecked |
| C21 R | api + account + gate | witness |
| C22 H | gate `order` line | line = spec line |
| C23 R | account.order + gate effects | success half proved, None half refuted |
| C24 H | `batch_submit_orders` | equality with the map of single calls |
| C25 H | `cancel_order` | case analysis + induction for batches |
| C26 H | `get_orders` | filter characterisation |
| C27 H | heap of Order objects, account holds references | append-only heap invariant over all later operations |
| C28 R | `sync_orders` | agreement on compared fields; witness for `err_msg` |
| C29 H | notification decision tree | exhaustive over statuses |
| C30 R | `sync_balance` | positions proved; witnesses for zero cash and failed sync |
| C31 H | positions | induction over order sequences |
| C32 R | portfolio | views proved; `position_value` witness |
| C33 R | id oracle | unique if the oracle does not repeat; witness |
| C34 R | writer LTS | lines preserved under all interleavings; header witness |
| C35 H | string replace | proof on accepted codes |
| C36 R | `sync_orders` on file text + offsets | partial for tears that leave an incomplete record; witness for a tear in the last field |
| C37 R | same | partial for over-long/bad-value lines; witness for short and blank lines |
| C38 R | `_update_order` | witness; partial for unknown status |
| C39 R | replay | partial when no order has both a rejection and an update; witness |
| C40 R | offsets and dated paths | witness |
| C41 R | save as micro-steps | POSIX proved; Windows witness |
| C42 R | order = append + save micro-steps, crash anywhere | durability and no phantom proved; witness for orphan line |
| C43 R | serialisability of prices | witness + persistence of the failure |
| C44 H | csv rows | prefix rejection, filter characterisation |
| C45 R | data file naming | witness, partial within one day |
| C46 | retry | exact call counts and sleeps |
| C47 R | argv parsing | round trip for separate tokens; witness `--name=x` |
| C48 R | process table LTS | mutual exclusion partial (flat process trees); witnesses |
| C49 R | stop_task | selection proved when all tasks have names; witness KeyError |
| C50 R | parse_env | round trip; witness value containing `=` |
| C51 R | lstrip | exact condition; witnesses |
| C52 R | conversion | whole-second partial; witness |
| C53 H | order json/load | field-wise |
| C54 H | context flags | case analysis |
| C55 R | any calls of set_options | single call proved; all calls characterised; witnesses |
| C56 H | strategy_print | case analysis |
| C57 R | loader | names without inner dots; witness |
| C58 H | `strategy.setup` + `EventSourceScheduler` + loop, one process | the calls made are a prefix of the owed calls, merged from all sources |
| C59 H | same | order of calls, no overtaking |
| C60 H | same | when the loop sleeps no owed call is due; none is made early |
| C61 H | same, `message.py` | functions scheduled for the same time are called in the order of their run_daily calls |
| C62 H | `account.py` sync timer, `event.py` priorities | the account is synced at the owed instants, before the tasks of the same instant |
| C63 H | `queue.py` ThreadSafeQueue | the queue is linearizable under threads |
| C64 M | `message.py` | every message has its own sequence number, also under threads |
| C65 M | `account.py` order sync | syncing again with the same reports changes nothing |
| C66 M | `account.py` order notices | the end of an order is told exactly once |
| C67 M | `utils.py` parse_dt | timestamps are read exactly as written |
| C68 H | `account.py` over the AnXin gate | the strategy sees what the broker's files say, also after restarts |
| C69 R | `trade_gate.py` | waiting for the lock of an order file ends in time |
| C70 R | `trade_gate.py` | a save file that could not be read is not lost |
| C71 R | `trade_gate.py` | each file of a task is its own |
| C72 R | `trade_gate.py`, `strategy.py` | the saved orders are where they are looked for |
| C73 R | `__main__.py` | get_tasks shows the running tasks |
| C74 R | `log.py`, `runner.py` | the log goes to one place, in order |
| C75 R | `strategy.py`, `event_source.py` | a task starts exactly when its times make sense |
| C76 R | `bus.py` | delivery while callbacks change the bus; live-list iteration |
| C77 R | `strategy.py` | what a failed `set_options` leaves behind |
| C78 R | `strategy.py` | options over several `set_options` calls |
| C79 R | `trade_gate.py` | lines about other tasks' orders do not matter |
| C80 R | `trade_gate.py`, `account.py` | contents of the order and cancel files over whole histories |
| C81 R | `trade_gate.py` | notices about rejected cancels |
| C82 R | `strategy.py`, `loop.py`, `account.py`, `trade_gate.py` | task process, account and gate together: one order line per owed instant |
| C83 R | `trade_gate.py` | calls of the gate with every reading of clock and directory made apart |
| C84 R | `trade_gate.py` | the broker's files as bytes, locale and file_encoding, UTF-8 |
| C85 R | `trade_gate.py` | the broker's files growing between the reads of one sync |
| C86 R | `common/utils.py` | the millisecond conversions in IEEE double precision |
| C87 R | `scheduler/event_source.py`, `scheduler/strategy.py`, `scheduler/loop.py` | the calls of an entry over any sequence of processes |
| C88 R | `scheduler/loop.py` | sleeping: float waits, clock readings, evenly running clocks |
| C89 R | `account/trade_gate.py` | the csv tokenizer: quoted fields, files without quotes, stray quotes |
| C90 R | `event_source.py`, one process | the windows of generated days, over any number of them |
| C91 R | `runner.py`, `__main__.py` | exact conditions of a start; a refused start leaves no trace |
| C92 R | `__main__.py` | what is typed is what is done |
| C93 R | heap of Position objects, account dicts hold references | erasure to values, detachment at each sync |
| C94 R | CPython's `_mktime` in a zone with offset changes | case analysis over the one change nearby |
| C95 R | start delay of callbacks: busy periods of the loop and the demand of periodic tasks | invariant over executions, counting per task |
| C96 R | size of the loop's queue, of the event sources and of the order books | invariants over executions |
| C97 R | `trade_gate.py`, `account.py` | from the text of the balance files to the portfolio |
| C98 R | `account.py`, `position.py`, `trade_gate.py` | closeable amount against what can be sold |
| C99 R | `loop.py`, `event_source.py`, `strategy.py` | when a task process ends |
| C100 | `trade_gate.py`, `account.py` | tasks sharing a broker directory do not see each other |
| C101 R | `trade_gate.py` | the order file of tasks sharing a directory |
| C102 R | retry | compounding after n set-ups |
| C103 | `_write` | mutual exclusion |
| C104 | `loop.py`, `event_source.py` | memory of the scheduler |
| C105 | `loop.py`, `event_source.py`, `strategy.py` | why a task process ends |
| C106 | `__main__.py` | the options of a command |
| C107 | `sync_orders` | nothing is lost |
| C108 | notifications | exactly when a status turns final |
| C109 | `portfolio.py`, `position.py` | positions read anew |
| C110 | `strategy.py` | injected names |
| C111 | `strategy.py` | the schedule is the run_daily calls |
| C112 | `runner.py` | conditions and effects of a start |
| C113 R | `account.py`, `trade_gate.py` | blank cash figures |
| C114 | `__main__.py`, `scheduler/utils.py` | which processes are touched |
| C115 | `_write` | where headers stand |
| C116 | csv reading | round trip of records |
| C117 | `event_source.py`, `loop.py` | windows of events over years |
| C118 | `loop.py` | what a delay is made of |
| C119 | `portfolio.py`, `account.py` | kept position objects |
| C120 | `parse_env` | which texts are accepted |
| C121 | `_write` | outcome of the wait for the lock |
| C122 | `sync_balance` | all or nothing |
| C123 | `sync_balance` | cash over sequences of syncs |
| C124 | `loop.py` | rounding of clock and timer |
| C125 | `event_source.py`, `strategy.py`, `loop.py` | runs over past days and with an end |
| C126 | `event_source.py`, `strategy.py` | the time texts of schedules, exactly |
| C127 | `api.py` | batches with elements that are no orders |
| C128 R | `loop.py`, `event_source.py` | errors below BaseException leave check_queue |
| C129 | `common/utils.py` parse_dt, parse_time | strptime's regular expression, every text |
| C130 | `trade_gate.py` sync_orders | every kind of line, and files of them |
| C131 R | `trade_gate.py` _update_order | the parameter `ptime` of MGate: strptime without separators |
| C132 R | `trade_gate.py` _update_order, sync_balance | float() and round() on the broker's figures: texts, nearest doubles, exactness |
| C133 | `event_source.py` add_event | int() and clock times with decimal digits of other scripts |
| C134 R | `order.py` __eq__, `account.py` sync_orders | orders with nan figures: repeated notices, new objects at every sync |
| C135 R | `trade_gate.py` sync_orders | universal newlines: '\r\n' files, lone '\r', files seen between '\r' and '\n' |
| C136 R | `trade_gate.py` order, cancel_order, _write | rows of the order and cancel files on POSIX and Windows |
| C137 | whole live process | exactly the due calls and syncs have been made at every sleep |
| C138 | loop + account + gate | orders, money and positions seen are those of the files at or after the due syncs |
| C139 R | `api.py`, `tests/demo` | the cancelling functions of the examples |
| C140 | `__main__.py`, `runner.py`, `utils.py` | the life of a task on the command line |
| C141 R | `utils.py`, `__main__.py`, `runner.py` | the commands while processes come and go |
| C142 R | `account.py`, `trade_gate.py` | an acknowledged order, from order() to what the strategy sees |
| C143 | `README.md`, `api.py`, `portfolio.py` | the example strategy of the README |
| C144 R | `api.py`, `portfolio.py`, `README.md` | the attributes of orders, positions and the portfolio |
| C145 | `README.md`, `strategy.py`, `loop.py`, `trade_gate.py` | a whole day of the README's example |
| C146 R | `api.py`, `order.py`, `README.md` | what the texts of orders and positions tell |
| C147 | `loop.py` | a task that is told to stop ends |
| C148 R | `api.py` (scheduler), `context.py` | the context object |
| C149 R | `trade_gate.py` `setup` | the options of the trade gate |
| C150 R | `strategy.py` `set_options`, `account.py` `setup` | the account right after `set_options` |
| C151 R | `strategy.py` `schedule`, `event_source.py` `setup`, `tests/demo` | functions scheduled a few seconds ahead |
| C152 R | `log.py` `SystemLogFormatter`, `fmt` | reading and sorting the log |
| C153 R | `log.py` `set_log_context` | the strategy's time in the log |
| C154 R | `setup.py`, `jqtrade/__init__.py` | requirements, version, author |
| C155 | `log.py` `setup_file_logger`, `runner.py` | the log files of all tasks |
| C156 R | `strategy.py` `set_options`, the configurations | defaults of options |
| C157 R | `account.py`, `trade_gate.py` `AbsTradeGate` | gates that change orders |
| C158 R | `scheduler/utils.py`, `__main__.py` | reuse of process numbers |
| C159 R | `trade_gate.py` | the gate's order and cancel files as bytes, file_encoding |
| C160 R | `trade_gate.py`, `order.py` | JSON text of the save file |
| C161 R | `trade_gate.py` | Encoding of the balance's files |
