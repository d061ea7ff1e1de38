# Formal model of jcorbin/anansi in Coq

This directory holds a machine checked model of the logic of `jcorbin/anansi`
(Go, `/repo`) and proofs of the properties listed in `properties.jsonl`.
`MANIFEST.json` maps every property to the theorems that state it.

## 1. How the development is organised

* `rocq/theories/*.v` model files: small total computable functions, one per Go
  function, each with a comment naming the file and the lines it models and
  where it simplifies.  No proofs in there.
* `*Spec.v`: independent specifications (what a user of the API expects),
  written without using the model's helpers.
* `*Facts.v`: lemmas and proofs.
* `Prop_*.v`: the property theorems only, each closed by `exact lemma`,
  followed by `Print Assumptions`, with an `Example` beside it showing that a
  concrete non-trivial case meets the hypotheses.

Numbers are `Z`.  Bytes are `Z` in `[0,256)` (`is_byte`), runes and identifiers
are `Z`, 64-bit attributes are `Z` with `Z.land`/`Z.lor`.  Go `int` arithmetic
is unbounded except where wrap-around is observable (`DecodeNumber`), where the
wrap is written explicitly.  A Go panic is the explicit outcome `Panic`; a loop
that may not terminate is run on fuel and "did not finish" is an explicit
outcome that theorems have to exclude or exhibit.  Slices are lists; functions
that write through a slice return the new contents (`DecodeEscape` permutes its
argument in place, so the model returns the modified buffer).  Where aliasing
is observable (`append` sharing capacity) the model has an explicit heap.

A property that the code violates is proved as `..._refuted : exists ...` with a
concrete witness, and the strongest natural true part is proved as
`..._partial`; its manifest status is `partial` and the note says what fails.

## 2. Trusted base

* Coq 8.16.1's kernel (including `vm_compute`).
* `Print Assumptions` stands below every property theorem; it prints "Closed under the
  global context" for each of them, no axioms of the standard library or otherwise, but for
  some theorems of C115, C121 and C122, which are about real numbers. For these it lists
  axioms of the standard library only, as follows.

| theorems | `sig_forall_dec`, `functional_extensionality_dep` | `sig_not_dec` | `classic` |
|---|---|---|---|
| `c115_top`, `c115_moved` | yes | | |
| `c115_draw`, `c115_square`, `c115_canvas_partial` | yes | yes | |
| `c115_canvas_refuted`, `c115_angle` | yes | yes | yes |
| `c121_prints`, `c121_wrong`, `c121_interactive`, `c121_fails`, `c121_lines_partial`, `c121_lines_refuted` | yes | yes | |
| `c122_squares` | yes | yes | |
| `c122_safe`, `c122_frame`, `c122_pixels`, `c122_screen_partial`, `c122_screen_refuted`, `c122_zoom`, `c122_keys` | yes | yes | yes |

  In full these are `ClassicalDedekindReals.sig_forall_dec`,
  `FunctionalExtensionality.functional_extensionality_dep`,
  `ClassicalDedekindReals.sig_not_dec` and `Classical_Prop.classic`; the last comes in with
  the standard library's facts about `PI`.
* The hand translation from Go to Gallina.  There is no extraction and no
  execution of the Go code; each definition cites the lines it was read from.
* The modelled behaviour of what the code calls, listed here by model file.

| model | trusted about the environment |
|---|---|
| `Base.v`, everywhere | Go `int` does not overflow except where the model says so (`DecodeNumber`, `Events.v` sums); slices are lists, functions writing through a slice return the new contents; index and slice expressions panic out of range |
| `Utf8.v` | `unicode/utf8` DecodeRune, EncodeRune, AppendRune, RuneCount, DecodeLastRune as documented; `unicode.IsGraphic` exact for runes below U+0100 and an arbitrary predicate above, over which theorems quantify |
| `Number.v`, `Escape.v` | `strconv.AppendInt` base 10 |
| `SeqHeap.v`, `Context.v` | `append` writes in place within capacity and copies beyond; growth of capacity is a parameter |
| `Buffer.v` | `bytes.Buffer` is a queue of bytes; `WriteTo` calls Write once; io.Writer's contract |
| `Geom.v`, `Bitmap.v`, `Colors.v` | `image.Point`, `image.Rectangle` arithmetic |
| `TermSpec.v` (reference terminal) | single-width characters, deferred wrap at the last column, erasing with or without the current background (parameter `bce`), ESC restarts a sequence, xterm's meaning of the sequences the library writes |
| `Render.v` | `ansiWriter` is a `Buffer` (`Writers.v` has the others); Real and the virtual grid have separate arrays |
| `File.v`, `Output.v` | fcntl F_GETFL/F_SETFL (settable bits of linux), `os.File.Fd` puts pollable files in blocking mode; two writes per flush with arbitrary outcomes |
| `Input.v` | reads with arbitrary counts and errors; `time.Format`/`Parse` as an oracle pair that is inverse on what was written; buffer capacity as an oracle |
| `Tty.v`, `Mode.v` | TCGETS/TCSETS get and set a settings record; linux/amd64 constants |
| `Signal.v`, `Outer.v` | channels per the Go specification; os/signal sends without blocking; `_exit` keeps 8 bits; SIGTSTP stops all goroutines, SIGCONT continues them and is caught once asked for |
| `Events.v`, `Mouse.v` | the parallel slices of `Events` are one list; aliasing of event arguments with the decoded buffer is not modelled |
| `EditLine.v` | the output cursor's column is an oracle |
| `LogSink.v`, `Bg.v` | file writes are oracles; flush and Write are atomic steps although LogSink's Mutex is never locked (data races are not modelled); messages SetFile logs are left out |
| `Sized.v`, `Playback.v` | write and seek on a regular file; reader schedules; `encoding/gob` state is an opaque byte string; mouse overlay and HUD left out |
| `Terminfo.v` | `binary.Read` is `io.ReadFull`; reads in arbitrary pieces; `filepath.Join`, `os.Open`, environment as arguments; the tables of builtins as an argument |
| `Tick.v` | `time.Ticker` has a channel of capacity 1 and drops ticks |
| `Diag.v` | times are nanoseconds and the zero time is 0; floats are pairs of integers; `sort.Sort` sorts; getrusage succeeds; the log worker keeps up |
| `Loop.v` | HUD and client together are one arbitrary function; HUD's record button and telemetry errors left out; the client does not assign `ctx.Err`; the overlay is an arbitrary function |
| `LogView.v` | the content slice's capacity is its length; `fmt.Fprintf` of numbers is one write of decimal digits; the output's internal buffer is empty |
| `To24.v` | standard output takes every write; a read returns bytes, the end of the file, or an error without bytes |
| `GridText.v` | the capacity that append leaves behind parsed cells; rune and attribute slices are one list of cells |
| `Lolwut.v` | ints are unbounded; the floating point placement and rotation of squares (drawSquare, draw); the float quotient in setup is an integer quotient (exact below 2^53) |
| `Profile.v` | the operating system and the runtime's profilers are a world with a failure oracle per call, failing calls changing nothing; a file is its name (handles, closing, positions are left out); log messages; flag parsing is its outcome; the telemetry log and Logs.SetFile are calls |
| `ColorModels.v` | maps are lists of entries; interface values are numbers and shared slices as in `Context.v` |
| `DecodeCmd.v` | what the operating system's reads return and whether they filled the buffer; the order in which the select receives; whether suspending succeeds; how escapes, attributes and arguments are formatted; standard output takes what is written |
| `Names.v` | strconv.Quote and %q as modelled, over any table of printable characters with the facts of `print_ok` |
| `Hud.v` | the texts shown (times, rates, mouse, sizes as formatted) are parameters, as are the names of pprof.Profiles() and whether creating a file succeeds; starting and stopping a profiler are effects; the client's Update is any function; the error of a client and of toggleRecRep is left out |
| `Writers.v` | byte counts of the ansiWriter methods are left out; a plain writer is an accepted length and an error; there are no ansiWriters besides Buffer, VirtualCursor and VirtualScreen (with what embeds it) |
| `TermBuiltins.v` | the init functions run in the order of the names of their files (as the go tool presents them); `Names.v`'s `str` gives the bytes of a literal; what a terminal does with a string is that of the reference terminal of `TermSpec.v` |
| `Collector.v` | telemetry collector of x/platform/diag.go:205-231, 320-453 with its goroutine, the slices it shares with Telemetry.Timing and Output, and the core of bg.go:62-109; atomic steps are those between lock, channel and field accesses; the floating point estimate is left out, bytes.Buffer and fmt's %d are the standard library's |
| `Recorder.v` | one recording file, auto.rec, that nobody else touches; `encoding/gob` sends the non-zero fields of a struct of numbers and leaves the others, gives up at the first failing write; the pieces it writes and all results of system calls are given |
| `Interact.v` | what running a command gives (`exec.Command(...).Output()`: status, error, output) is an oracle of how many ran before and its words; log lines are left out; `Run`'s loop is in `Demo.v` |
| `Demo.v` | the time of a frame is given as its seconds and nanoseconds; `log.Printf` is the list of what it is given; what `Platform.Run` returns is an oracle of how often it was called and the client; the pointer receiver's grid is returned |
| `InputNotify.v` | `os/signal` is the registry of `Signal.v`, with SIGIO as 29 on Linux; that arriving input raises SIGIO is given as an operation of its own, and does not depend on O_ASYNC or on the owner set by fcntl; what fcntl reports is an argument |
| `Whole.v` | the four contexts a terminal sets up itself, put together from `Input.v`, `Tty.v`, `Mode.v`, `Context.v` and `Term.v`; contexts added by the client are left out; input and output are different open files, so that flags set on one are not seen on the other; what each system call reports is an oracle of the number of calls of contexts before |
| `Profilers.v` | x/platform/hud.go updateProfilers, the profilers group and what presses of the spinners do, over the contexts of Profile.v; every pprof profile is taken for the heap profile, log messages are left out |
| `PlatScreen.v` | x/platform/platform.go New's modes and list of contexts, what their Enter and Exit and a frame write, over Mode.v, TermScreen.v and Output.v; the other contexts are calls that succeed, fail or panic as the system says; the reference terminal with an alternate screen is `AltTermSpec.v` (1049 as in xterm, a NUL within a control sequence ignored or ending it) |
| `PlatRun.v` | x/platform/platform.go New and Run as to the terminal's own parts (Whole.v) and signals (InputNotify.v); configuration and options are one call that may fail (Profile.v has them) |
| `FrameText.v` | `InputReplay.Duration` and `InputFrame.String` of input.go:421-453; the text of a time is an oracle, a time is its nanoseconds since the zero time (0 for the zero time), time.Sub saturates |
| `Schotter.v` | draw, drawSquare and rotPt of cmd/lolwut/main.go:107-182 and the angle of interact.go:80-83; float64 is taken as the real numbers of Coq's standard library, math.Sin, Cos, Round and Sqrt2 as exact, so rounding errors are left out; the random source is an oracle for each square |
| `StateText.v` | the String methods of points, rectangles, mouse states, events, cursors and screens and of mouse errors; image.Point's String and fmt's verbs trusted to print as documented; Seq ids as in `Names.v` |
| `DecodeRun.v` | IsTerminal of a file and of a Term; run of cmd/decode, the program inside being any program of reads, writes, suspensions and failures (`WholeSpec.v`); Attr.Size on linux, system calls' errors and the terminals' sizes being oracles |
| `NewPlat.v` | platform.New with its options: frame rate, configuration, flags and setup; whether Notify fails, whether flags are parsed already and what they hold are inputs; modes and contexts are in `PlatScreen.v` |
| `LolwutMain.v` | lolwut as a command: arguments (`strconv.Atoi` included), drawing, printing; what `flag.Parse` leaves, the random source and how the two writes come out are inputs; float64 is the reals, as in `Schotter.v` |
| `LolwutUI.v` | a frame of the interactive lolwut (`interact.go:26-86`): keys, wheel, resizing, drawing, showing; the random numbers of each frame are inputs; float64 is the reals, as in `Schotter.v` |
| `Bufio.v` | `bufio.Writer` of the standard library (`Write`, `WriteRune`, `WriteByte`, `Flush`, its buffer of 4096 bytes and the error it keeps); a short write comes with an error; the outcomes of writes are inputs |
| `DecodeOut.v` | the batch filter of cmd/decode/main.go:60-128 with the bytes it writes, through the bufio.Writer of `Bufio.v`; the text of DecodeSGR's errors and strconv.IsPrint are parameters; the order of logging the trailer and of flushing is not modelled |
| `DecodeLoop.v` | runInteractive (cmd/decode/main.go:139-205) as the goroutine, the channel and the select, each step of which may be next; handling a choice is one step; standard output takes everything; what term.Suspend does to the Input while the goroutine reads is not modelled |
| `PaletteText.v` | the flags' parsing; fmt's padding and `%q` (strconv's quoting, with `isprint` an argument); a line feed is printed as such (the tty adds the carriage return) |
| `TermScreen.v` | as `Render.v` and `Output.v`; the size is read by an ioctl that succeeds or not |

## 3. What is modelled

See the table in section 6 (regenerated as the model grows).

## 4. What is not modelled

* The Go runtime (scheduler, garbage collector), the kernel's tty
  layer, time: only the bookkeeping logic around them is modelled, with arbitrary schedules
  where goroutines matter (`Bg.v`, `Outer.v`, `Tick.v`).
* Whatever section 6 lists as not modelled, mainly `String()`/`Format` methods that use `fmt`, the
  example programs under `cmd/`, configuration and profiling in `x/platform`, most of the HUD, and tests.
* Memory aliasing between slices, except where a model has an explicit heap (`SeqHeap.v`,
  `Context.v`, the cells behind sub-grids and sub-screens).
* Data races.

## 5. Per property plan

| id | what is modelled | how it is proved |
|----|------------------|------------------|
| C01 | `Escape.AppendWith`, `Seq.AppendTo`, `decodeCSI`, `DecodeEscape` | round trip, induction over the argument bytes |
| C02 | `decodeString`, `DecodeRune`, UTF-8 | round trip over a list of runes, induction |
| C03 | `decodeESC`, `AppendWith`, `Seq.AppendTo` | round trip; charset selection through AppendTo refuted (argument printed before the identifier) |
| C04 | `DecodeEscape`, `decodeESC` (with in-place shuffling) | invariant of the loop: result is a permutation, suffix untouched, n ≤ len |
| C05 | `DecodeNumber` with uint64 arithmetic | induction over digits for ≤ 2^32-1; out of range refuted |
| C06 | `WithPoint`, `DecodePoint` | corollary of C05 |
| C07 | `SGRAttr.AppendTo`, `DecodeSGR` and colour decoders | structured attribute record as spec, round trip; conceal refuted |
| C08 | `Size` methods | case analysis |
| C09 | `Diff`, `Merge` | bit-level reasoning with `Z.testbit` |
| C10 | `FG/BG/SansFG/SansBG/RGB/To24Bit` | bit-level reasoning, table sweep for the 256 palette |
| C11 | `Mode.Set/Reset`, `DecodeMode` | corollary of C01, C05 |
| C12 | `DecodeXtermExtendedMouse` | corollary of C05 plus rejection lemmas |
| C13 | `MouseState` methods | finite sweep over 256 states lifted to a forall |
| C14 | `ansi.Rectangle` methods | linear arithmetic |
| C15 | `PtFromImage/ToImage/RectFromImage/Rectangle.ToImage` | arithmetic; `RectFromImage` refuted (always returns the zero rectangle) |
| C16 | `Palette.Index/Convert` | exact minimality refuted (metric divided by 4); within-3 bound proved |
| C17 | `Seq.With/WithInts` with an explicit heap of extra slices | heap separation |
| C18 | `ESC`, `CSI`, `IsEscape`, accessors | finite sweep and arithmetic |
| C19-C23 | `grid.go` | arithmetic over row-major layout; list lemmas; `Eq` refuted for same length, different shape |
| C24, C25 | `draw.go` | loop invariants; styled path refuted (source row / destination column never advance) |
| C26 | `style.go` | induction on style lists; NoopStyle refuted (drops attribute) |
| C27, C28 | `bitmap.go`, `DrawBitmap` | finite sweep over 8 dots; list lemmas |
| C29-C35 | `state.go` Screen, `buffer.go` Process | invariants by induction over operations; several refuted |
| C36-C39 | `state.go` Cursor, `render.go`, against an independent reference terminal | refinement; vertical-only `To` refuted |
| C40-C44 | `screen.go`, `cursor.go`, `buffer.go` with an oracle writer | invariants over schedules |
| C45, C47 | `output.go`, `input.go` flags | state machine over a file with flags |
| C46, C48 | `input.go` Decode, record/replay | refinement to the one-shot decoder |
| C49, C50 | `context.go`, `term.go` | trace semantics over nested programs |
| C51, C52 | `attr.go`, `mode.go` | state machine |
| C53-C55 | `x/platform/event.go`, `editline.go` | list refinement |
| C56, C57 | `x/platform/log.go`, `replay.go` | list refinement |
| C58, C59 | `x/platform/bg.go`, `signal.go` | state machine |
| C60 | `terminfo/read.go` | reader with arbitrary chunking oracle |
| C61 | `Output.Stalls`, `recordStall` | induction over histories of flushes and harvests |
| C62 | `Attr.SetRaw/SetEcho` | flag by flag over histories |
| C63, C64 | `EditLine.Update` | simulation by a line of runes with a cursor |
| C65 | `BackgroundLogWriter` | invariants over all interleavings; deadlocks exhibited |
| C66 | `replay.go` | round trip through a file with reader schedules |
| C67 | `terminfo.Load` | all environments, file systems and tables |
| C68 | `Ticker` | invariant over histories of operations and ticks |
| C69-C71 | `diag.go` | invariants of the sampling windows; sortedness of quantiles |
| C72-C77 | `platform.go` frame loop | induction over frames; refinement to C39's sessions |
| C78, C79 | single styles, `WriteBitmap` | case analysis, list lemmas |
| C80, C81 | `LogView` | arithmetic of the window; screen contents row by row |
| C82 | `TermScreen` | against the reference terminal of C36-C39 |
| C83-C85 | `MustRun`, `openTermFiles`, `Suspend` | case analysis; invariant over all schedules |
| C86, C87 | Ctrl-R and replaying Runs (`Loop.v`) | induction over frames and over Runs; determinism |
| C88 | SGR parameter lists (`Sgr.v`) | one lemma per form of parameter, induction over the list; numerals are unique |
| C89 | `cmd/to24bit` (`To24.v`) | induction over tokens within a read and over reads; palette by a sweep over 256 colours |
| C90 | `test/grid.go` (`GridText.v`) | induction over tokens and cells with the attribute in effect as invariant; terminal semantics of lines in `GridTextSpec.v` |
| C91 | `cmd/lolwut` (`Lolwut.v`) | loop invariant: after k steps position and error term are the closed form of `LolwutSpec.v` (nearest pixels of k evenly spaced points); geometry proved of the closed form |
| C92 | `x/platform/config.go` (`Profile.v`) | invariant over all operation sequences and oracles: a running profiler is owned by its active context; episode lemma for contents; composition for whole runs |
| C93 | `ansi/colors.go`, `cmd/palette` (`ColorModels.v`) | combination by the heap invariant of C49; palettes: first minimum and zero distance; canonical map: lookup lemma and sweep of the table |
| C94 | `cmd/decode` (`DecodeCmd.v`) | token induction over reads with the pending prefix of `InputFacts`; the session by induction on received events with the last escape as state |
| C95 | String methods of `ansi/escape.go`, `ansi/control.go`, `ansi/sgr.go` (`Names.v`) | a reader of quoted text inverts Quote; finite sweep over named identifiers; words split back |
| C96, C97 | `x/platform/hud.go` top line, headers, rows, buttons, toggles (`Hud.v`) | an invariant of settled output on a screen, one exact picture per drawing step |
| C98, C99 | `x/platform/hud.go` focus, file names, profile list (`Hud.v`) | refinement to the line editor of C55; an invariant over the controls of a frame: after a creation no control has the focus and no edit is left |
| C100 | `render.go` functions taking an io.Writer, for each kind of writer (`Writers.v`) | refinement of the generic functions to the byte-list ones of `Render.v`; simulation between a Buffer and a virtual cursor or screen, token by token, where no attributes are involved |
| C101 | the builtin terminal descriptions, FuncMap, KeyMap, GetBuiltin with the real tables (`TermBuiltins.v`) | tokenizing of closed strings by a checked tokenizer; each token's effect lemma composed over the string; for keys induction over those typed |
| C102 | telemetry log (`Collector.v`) | JSON reader in `CollectorSpec.v`; each line read back; invariants over schedules: file is whole lines, windows logged in order, stalls a subsequence of those per frame; refutations by running a schedule |
| C103 | telemetry worker (`Collector.v`) | invariant over disciplined schedules: a held error means nothing is pending until the next update, so the worker never blocks with the lock; refutations: states in which no step is possible |
| C104 | making recordings (`Recorder.v`) | refinement to session files; invariant over all histories of toggles, reads, resizes; composition with C57 and C66 |
| C105 | state of recordings (`Recorder.v`) | field-wise merge as spec; invariant of the stalls switch |
| C106 | cmd/interact (`Interact.v`) | invariant of any session (sound, runs, what is shown); frame theorems over the words; the view via the facts on writing and copying cells |
| C107 | cmd/demo and the client loops (`Demo.v`) | painting a row, then rows, by induction; every row after the first is painted over it as the point looked up lies right of the grid; copying to the output cell by cell; session invariant |
| C108 | input notification (`InputNotify.v`) | refinement to a record of the watched channel and of which channels hold a signal; invariant on the registry; bits of the file's flags |
| C109 | whole sessions (`Whole.v`) | invariant relating what Enter was called last to attributes, flags and modes, kept by every act, by Enter and by Exit; induction over programs |
| C110 | Invariant: a running profiler belongs to an active context with its file; induction over the group with every member's error kept; with a system that does not fail, exact files | Refuted: retry by another press; a bad name leaves the profiler alone |
| C111 | platform screens (`PlatScreen.v`) | a parser abstraction of the reference terminal: bytes that never complete a private mode or soft reset are silent (only draw); all that frames and Exit write is silent, from any parser state for Exit; induction over programs with the state of the screen as invariant |
| C112 | `ansi/sgr.go` SGRReset, `ansi/funcs.go` SoftReset (`PlatScreen.v`) | computing on the reference terminal from any parser state, by cases on its kind | 
| C113 | `platform.Run` (`PlatRun.v`) | New's effect on flags bit by bit, then composition with the session theorem of C109 |
| C114 | text and duration of recorded frames (`FrameText.v`) | quoting is injective, so what follows can be split off; sum of gaps by induction; refutations by computation and for all inputs |
| C115 | lolwut's picture (`Schotter.v`) | addition theorems for sine and cosine: a quarter turn of the angle is a quarter turn of the rounded corner, so four of them close the figure; bounds on rounding; refutation with exact values |
| C116 | what is printed of mouse states, events, cursors and screens describes them | cutting the text at bytes that the parts do not hold; all 256 mouse states and all named identifiers by computation; decoded identifiers are named ones |
| C117 | points and rectangles are built and computed with as documented | linear arithmetic; the points of a rectangle listed without repetition |
| C118 | decode's sessions set the terminal as its flags ask, and give it back | an invariant of all programs run in a session, besides that of C109: settings in force and texts sent |
| C119 | Size is the output terminal's, inside a session only | what SetRaw and SetEcho keep of an Attr |
| C120 | a platform is built as its options and flags say | induction over options |
| C121 | the lolwut command prints its picture (`LolwutMain.v`) | composition of C91's canvas, C115's picture and C79's text; `Atoi` characterised by a relation |
| C122 | the interactive lolwut (`LolwutUI.v`) | an invariant of the client kept by each frame; composition of C53's events, C91's resizing, C115's picture and C28's drawing |
| C123 | to24bit with failing output (`Bufio.v`) | an invariant of the buffered writer kept by every call; simulation of C89's run |
| C124 | decode does not lose output silently | a simulation of the filter of C94 by the one with a writer, carrying the invariant of C123 |
| C125 | The interactive decode and its goroutine | an invariant over interleavings: what the select received, continued by any way to decode what is still in the buffer, is a way to decode all that was read |
| C126 | A Cursor follows the terminal | simulation: each character or sequence that the reference terminal of `TermSpec.v` carries out plainly keeps the tracking relation, then induction over the session |
| C127 | A Screen has what the terminal shows | refinement: a relation between a Screen and the reference terminal of `TermSpec.v` (contents, rendition, cursor, a pending wrap standing for the start of the next line), kept by each character or sequence, then induction over the session and the tokens of its bytes |
| C128 | What the palette listing shows | printing relation on the reference terminal composed over the parts of a row (control strings by C05's rendition lemma, literals by unquote of quote); sweep of the listings for the widths; lines of the page by induction |

## 6. Coverage table and findings

A function counts as modelled if a model definition cites lines of it (simplifications are
stated in the comment that cites it).

<!-- coverage -->
| Go file | functions modelled | model | not modelled |
|---|---|---|---|
| `attr.go` | 10 of 10 | `DecodeRun.v`, `NewPlat.v`, `Outer.v`, `Tty.v` |  |
| `attr_bsd.go` | 0 of 3 |  | Attr.getSize, Attr.getAttr, Attr.setAttr |
| `attr_linux.go` | 3 of 3 | `DecodeRun.v`, `Tty.v` |  |
| `bitmap.go` | 12 of 12 | `Bitmap.v` |  |
| `buffer.go` | 14 of 16 | `Buffer.v`, `LolwutMain.v`, `Output.v`, `SgrTerm.v`, `Writers.v` | *Buffer.Grow, *Buffer.Bytes |
| `context.go` | 4 of 4 | `ColorModels.v`, `Context.v`, `Whole.v` |  |
| `cursor.go` | 13 of 13 | `State.v`, `Writers.v` |  |
| `draw.go` | 4 of 4 | `Bitmap.v`, `Grid.v` |  |
| `grid.go` | 11 of 11 | `Grid.v`, `Render.v`, `StateText.v` |  |
| `input.go` | 23 of 27 | `File.v`, `FrameText.v`, `Input.v`, `InputNotify.v`, `NewPlat.v`, `Recorder.v`, `Whole.v` | *Input.SetRecording, *Input.IsRecording, *Input.AtEOF, *Input.readBuf |
| `mode.go` | 5 of 5 | `Mode.v`, `PlatScreen.v` |  |
| `output.go` | 8 of 8 | `Collector.v`, `File.v`, `Output.v`, `Whole.v` |  |
| `render.go` | 8 of 8 | `Render.v`, `Writers.v` |  |
| `screen.go` | 16 of 16 | `Interact.v`, `Loop.v`, `Output.v`, `PlatScreen.v`, `Render.v`, `State.v`, `TermScreen.v`, `Writers.v` |  |
| `signal.go` | 8 of 14 | `Signal.v` | syntheticSignal.String, syntheticSignal.Signal, SigErr, SignalError.String, SignalError.Error, SignalError.Signal |
| `state.go` | 27 of 28 | `LogView.v`, `Loop.v`, `Render.v`, `State.v`, `StateText.v`, `Writers.v` | ptID |
| `style.go` | 10 of 10 | `Grid.v` |  |
| `term.go` | 8 of 10 | `DecodeCmd.v`, `DecodeRun.v`, `Outer.v`, `PlatRun.v`, `PlatScreen.v`, `Term.v`, `Whole.v` | OpenTerm, IsStandardTermFile |
| `ansi/colors.go` | 10 of 10 | `ColorModels.v`, `Colors.v`, `Sgr.v` |  |
| `ansi/control.go` | 15 of 16 | `Escape.v`, `Names.v`, `SeqHeap.v` | Seq.ID |
| `ansi/decode.go` | 17 of 17 | `Decode.v`, `Number.v`, `Sgr.v`, `StateText.v` |  |
| `ansi/escape.go` | 7 of 7 | `Escape.v`, `Names.v` |  |
| `ansi/geom.go` | 28 of 28 | `Geom.v`, `StateText.v` |  |
| `ansi/modes.go` | 2 of 2 | `Number.v`, `PlatScreen.v`, `State.v` |  |
| `ansi/mouse.go` | 11 of 11 | `Mouse.v`, `StateText.v` |  |
| `ansi/sgr.go` | 25 of 25 | `ColorModels.v`, `Names.v`, `PaletteText.v`, `PlatScreen.v`, `Sgr.v` |  |
| `terminfo/builtin.go` | 1 of 1 | `Terminfo.v` |  |
| `terminfo/builtin_eterm_terminfo.go` | 1 of 1 | `TermBuiltins.v` |  |
| `terminfo/builtin_linux_terminfo.go` | 1 of 1 | `TermBuiltins.v` |  |
| `terminfo/builtin_rxvt_256color_terminfo.go` | 1 of 1 | `TermBuiltins.v` |  |
| `terminfo/builtin_rxvt_unicode_terminfo.go` | 1 of 1 | `TermBuiltins.v` |  |
| `terminfo/builtin_screen_terminfo.go` | 1 of 1 | `TermBuiltins.v` |  |
| `terminfo/builtin_xterm_terminfo.go` | 1 of 1 | `TermBuiltins.v` |  |
| `terminfo/read.go` | 4 of 4 | `Terminfo.v` |  |
| `terminfo/terminfo.go` | 4 of 4 | `TermBuiltins.v`, `Terminfo.v` |  |
| `test/grid.go` | 6 of 6 | `GridText.v` |  |
| `x/platform/bg.go` | 7 of 7 | `Bg.v`, `Collector.v` |  |
| `x/platform/config.go` | 27 of 34 | `Hud.v`, `NewPlat.v`, `Profile.v`, `Profilers.v` | *pprofProfileContext.defaultFileName, *cpuProfileContext.name, *traceProfileContext.name, *pprofProfileContext.name, *cpuProfileContext.file, *traceProfileContext.file, *pprofProfileContext.file |
| `x/platform/diag.go` | 22 of 40 | `Collector.v`, `Diag.v`, `Hud.v`, `Profile.v`, `Recorder.v` | rusageDelta.dt, rusageDelta.utime, rusageDelta.stime, rusageDelta.maxrss, rusageDelta.ixrss, rusageDelta.idrss, rusageDelta.isrss, rusageDelta.minflt, rusageDelta.majflt, rusageDelta.nswap, rusageDelta.inblock, rusageDelta.oublock, rusageDelta.msgsnd, rusageDelta.msgrcv, rusageDelta.nsignals, rusageDelta.nvcsw, rusageDelta.nivcsw, *Telemetry.FPS |
| `x/platform/editline.go` | 6 of 9 | `EditLine.v` | *EditLine.Active, *EditLine.Done, *EditLine.Canceled |
| `x/platform/event.go` | 14 of 17 | `Events.v`, `StateText.v` | *Events.Escape, *Events.Mouse, *Events.Rune |
| `x/platform/hud.go` | 35 of 36 | `Hud.v`, `LogView.v`, `Loop.v`, `NewPlat.v`, `Profilers.v` | NewLogView |
| `x/platform/log.go` | 8 of 9 | `Bg.v`, `LogSink.v` | init |
| `x/platform/options.go` | 3 of 3 | `Diag.v`, `NewPlat.v`, `Tick.v` |  |
| `x/platform/platform.go` | 9 of 13 | `Diag.v`, `Loop.v`, `NewPlat.v`, `PlatRun.v`, `PlatScreen.v`, `Playback.v`, `Profile.v`, `Recorder.v`, `Tick.v` | MustRun, ClientFunc.Update, IsReplayDone, IsReplayStop |
| `x/platform/replay.go` | 14 of 14 | `Loop.v`, `Playback.v`, `Recorder.v`, `Sized.v` |  |
| `x/platform/state.go` | 2 of 2 | `Recorder.v` |  |
| `x/platform/tick.go` | 3 of 3 | `Tick.v` |  |
| `cmd/decode/main.go` | 6 of 7 | `DecodeCmd.v`, `DecodeLoop.v`, `DecodeOut.v`, `DecodeRun.v` | main |
| `cmd/demo/main.go` | 2 of 3 | `Demo.v` | main |
| `cmd/interact/main.go` | 6 of 6 | `Demo.v`, `Interact.v` |  |
| `cmd/lolwut/interact.go` | 2 of 2 | `Lolwut.v`, `LolwutMain.v`, `LolwutUI.v`, `Schotter.v` |  |
| `cmd/lolwut/main.go` | 8 of 8 | `Lolwut.v`, `LolwutMain.v`, `Schotter.v` |  |
| `cmd/palette/main.go` | 2 of 3 | `ColorModels.v`, `PaletteText.v` | *colorModelFlag.String |
| `cmd/to24bit/main.go` | 4 of 4 | `Bufio.v`, `To24.v` |  |

7122 of 7251 lines of functions are in functions cited by a model definition.
<!-- /coverage -->

### Findings

Behaviour of the code that contradicts its documentation or a reasonable reading of it, each
exhibited by a `_refuted` theorem unless marked (n), where it is only noted here.

* `ansi/decode.go`: DecodeEscape panics on empty input (n); two-byte escapes are rewritten in place (C44);
  ESC ESC, ESC 0xFF and ESC U+FFFD make no progress (C32); a cancelled escape at the end of input gives a spurious
  U+FFFD (C54); strings containing U+FFFD are cut (C02); numbers out of range wrap around (C05).
* `ansi/sgr.go`: Conceal is lost by decoding (C07); attributes with the Clear bit are written again and again (C09, C37);
  `CSI m` without arguments does not reset (C34).
* `ansi/control.go`, `escape.go`: character set designators are written in the wrong order (C03); sizes are
  off for some identifiers (C08).
* `ansi/geom.go`: RectFromImage always returns the zero rectangle (C15).  `ansi/colors.go`: the metric drops low bits (C16).
* `ansi/modes.go`: the X10 mouse mode lacks the private flag (n).
* `grid.go`, `draw.go`, `bitmap.go`, `style.go`: see the notes of C21 to C28, C78.
* `state.go`: straight vertical moves write nothing (C36); a carriage return leaves sub-screens, erasing clears outside
  them (C29); ED 0 spares the cell under the cursor (C34); no scrolling (C35); CSI ? ? h loops forever (C30);
  private-use runes are taken for escape sequences (C54).
* `screen.go`: an interrupted flush leaves a wrong idea of the terminal (C41), so does a failed one (C42), a failed Exit
  cannot be repeated, and Enter ignores that the size cannot be read (C82).
* `cursor.go`: Apply interprets its own output twice (C43).
* `input.go`: characters split between reads (C46), blocking reads after ReadAny (C47), bytes returned together with EAGAIN
  or a repeated EOF are dropped (C46), recordings are replayed with NUL bytes (C48).
* `context.go`, `term.go`: combining contexts may overwrite earlier combinations (C49); contexts are closed twice or exited
  twice in some nestings (C50); Suspend may miss the SIGCONT that ends its stop (C85); exit codes that are multiples of 256
  are success (C83).
* `attr.go`: a failed Enter makes Exit write zeroed settings (C51); SetRaw cannot be retried (C62).
* `terminfo`: strings a description lacks read as garbage (C60); Load("") panics, unreadable files hide builtins (C67).
* `x/platform`: see the notes of C53 to C57, C63 to C66, C68 to C77, C80, C81.  Keys in a recording act on its own replay, and a
  pause outlasts the Run it was made in (C87).
* `cmd/to24bit`: background colours are never converted; strings lose all but their introducer; sequences and characters split
  between reads are broken (C89).  DecodeSGR takes absent parameters for nothing and default colours for errors (C88).
- The test helpers lose concealed text, panic on grids without cells, read rows of partial grids from outside of them
  (`GridRowData`), and overwrite the empty cells of the grid they render (`RunesToLines`) (C90).
- `drawLine` of a segment and of its reverse differ where the line passes exactly between two
  pixels (C91). The interactive demo resizes its canvas only when the screen's width changes, so
  a change of height alone leaves it too short or too tall until the next zoom (C91).
- Profile contexts truncate their file on every start, so suspending and resuming erases what was
  profiled before (C92). When flushing a profile fails, its context stays active with the profiler
  stopped: starting it again reports success and profiles nothing (C92). The `StartTiming` setting
  and `-platform.timing` flag have no effect, and `AddFlags` with a prefix resets the timing
  settings of the configuration it is called on (C92).
- Two combinations made from one `ColorModels` value share an array, so that the second changes what
  the first converts to; combining no models gives nil, which panics when used (C93). Converting with
  a palette of nearly equal colours twice is not the same as once (C93). `SGRColorCanon` turns black,
  red and other basic colours into cube colours when their 24 bit values are mapped back (C93).
  `UbuntuPalette` lacks its black: its colour 0 is red and 1 is green (C93).
- `cmd/decode` always exits with status 1 (io.EOF is returned as an error); a rune or ESC split between reads is mangled or leaks; a string holding a byte that is not UTF-8 makes it hold back all later input; stripped output can contain working escapes; its Ctrl-L prompt says "quit" (C94).
- `Escape.String` prints other runes quoted, not as U+XXXX as its comment says, and negative values as `^` and possibly a control character (C95).
- Showing the HUD crashes the program on a terminal too narrow for its top line, 43 columns with usual texts (C96); it also moves the program's cursor, because the virtual screen ignores the save and restore sequences it writes (C96).
- HUD rows are drawn one column left of their box (C97).
- HUD controls are identified by their number in the frame, so hiding a section while a name is being edited moves the focus: the name then goes to another profiler (C98).
- In the HUD's list of profiles a name of 16 columns or more makes a press below the list panic, the last row of the screen cannot be pressed, and a double press adds a profile twice (C99).
- WriteGrid, WriteBitmap, Update and ApplyTo given a VirtualScreen, ScreenDiffer or VirtualCursor lose attributes: they pass differences to its WriteSGR, which takes them for the attributes to be in force (`c100_screen_refuted`, `c100_cursor_refuted`). The second of two bold cells is drawn without bold.
- After a failed write WriteGrid and Update return a screen state with cells that were never delivered (`c100_failed_refuted`).
- SGR0 of every builtin terminal description has no effect on an anansi screen: `ESC [ m` has no parameter and is ignored, and linux's `ESC [ 0;10 m` is refused as a whole (`c101_none`, `c101_reset_refuted`). ClearScreen of linux and screen erases nothing there, for ED without a parameter is ignored (`c101_clear_refuted`).
- The keys of xterm and screen in application mode (`ESC O A`) come as a control and a plain letter; TotalCursorMovement does not see them and CountRune('A') counts them (`c101_one_refuted`, `c101_arrows_refuted`).
- Any TERM with the letters `st` in it gets xterm's description (`c101_st_refuted`).
- Telemetry log: a stall in the flush after a window's last frame overwrites the slice handed to the collector and is logged twice (C102); Stop can wait for ever if the worker is not in its receive (C103), as for the log's writer.
- Recordings: sizes taken while recording are not recorded; a failed start loses the recording there was, or (file not created) is not reported; a client used again keeps fields that were recorded as zero; the stalls switch of a recorded state tracks nothing.
- cmd/interact: started without a command it crashes; with one row (two with the HUD) it crashes; a value cannot be emptied; a variable ending in the last column cannot be pressed; after a frame on a screen without size nothing is run; the last row is never used; it cannot be recorded, as `inspect` has no exported field for `encoding/gob` (read only, not modelled).
- cmd/demo: every row of its picture is painted over the first one, as the cell of the next row is looked up with the column left after the last one (main.go:79); below the first row the screen stays blank, or shows what is left of a wider first row.
- Input.Notify registers the new channel before it stops the prior one (input.go:96-101): given the same channel again it is stopped, so an InputSignal entered again after Suspend hears neither input nor the signals it names.
- Input.Notify(nil) does not disable async mode as documented: the flags are only ever added to, so O_ASYNC stays set until Exit.
- If RunWithout fails to enter again at the modes, the terminal is half entered though not active (term.go:158-164): the next RunWith takes the program's own attributes for the original ones and leaves them behind.
- If Input.Enter fails, RunWith still calls Exit, which sets the input's flags to zero, as oldFlags was never filled in (input.go:280-293).
- `ansi.SGRReset` (ansi/sgr.go:50) is `ESC [ NUL m`: `SGR.With(SGRCodeClear)` passes the number 0 where the digit `'0'` is needed. Terminals that ignore NUL take it for `ESC [ m`; others print an "m"; the library's own screens ignore it. `platform.New` writes it at every start (platform.go:62).
- After `platform.Run` the input file keeps O_ASYNC: New calls Input.Notify before Enter notes the flags to restore (platform.go:50-53, input.go:276-283), Close does not clear it (input.go:298-304). If New fails later its channel stays registered too.
- `InputFrame.String` prints the message in place of the input (input.go:450 formats `frm.M`), so input never shows (`c114_input_refuted`); `InputReplay.Duration` of any recording made by the platform is 2^63-1 ns, as its first frame is the size message and has no time (`c114_message`, `c114_duration_refuted`): loadReplay logs 292 years.
- With lolwut's default arguments a square of the last row can be turned and moved off the canvas, where its pixels are lost (`c115_canvas_refuted`).
- Mouse state 67, of a wheel without a button, prints (and counts, in IsPress) as a press of the right button; control bytes between the bytes of a CSI argument and inside strings are kept by the decoder and printed raw by the text of an escape event (C116).
- A `*Config` is an `Option` too, but `hasConfig` asks for a `Config`: given by pointer, a configuration does not keep `platform.New` from parsing flags, which then win over it; and when `New` fails, the files created before stay emptied (C120).
- Asked for one column, `lolwut` prints an empty line: the canvas has no height (C121).
- `decode` as a filter never answers the error of its final flush: its loop ends only with an error, usually io.EOF, and the deferred flush reports only if there is none (C124).
- The goroutine of the interactive `decode` never ends when its loop does (C125).
- A `Cursor` fed with what a terminal gets loses track of it at a wrap, a scroll, an edge, a zero or omitted parameter, `CSI m` and soft hyphens, and takes a position to be known after two motions from an unknown one (C126).
- A `Screen` fed with what a terminal gets shows something else after a line feed on the last line, a character in the last cell, CR (or an erasure or motion) after a character in the last column, ED 0, ED or EL without parameter, a motion by 0, CUP without a column, SGR without parameters, a soft hyphen, and coloured erasures (C127).
- cmd/palette's rows from 100 on are shifted by a column (`% 3d` keeps a space for a sign), and with `-themes` and the model id the theme's colours exceed the width of their columns (C128).
- If a context before Mode fails in Enter, or RunWithout's function fails, the alternate screen mode is reset without having been set, and xterm then moves the user's cursor to the position last saved (platform.go:54-62, context.go).
- The HUD's control for all profilers stops those that run when one of them could not be started, so it cannot be tried again that way; and naming a file that cannot be created stops the running profiler.
