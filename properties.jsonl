{"id": "C01", "title": "CSI sequences survive encode/decode", "statement": "Encoding any CSI control sequence with argument bytes (Escape.AppendWith, or a Seq built with With/WithInts) and decoding the bytes with ansi.DecodeEscape yields the same control identifier, exactly the same argument bytes, and consumes exactly the encoded bytes, whatever bytes follow.", "quantifier": "every CSI identifier, every argument byte string made of parameter bytes followed by intermediate bytes, every list of ints, every trailing byte string", "why_tests_cant": "the argument and the trailing bytes are unbounded strings; the existing tests try a handful of literals", "anchors": ["ansi/control.go:Escape.AppendWith", "ansi/control.go:Seq.AppendTo", "ansi/decode.go:DecodeEscape", "ansi/decode.go:decodeCSI"]}
{"id": "C02", "title": "String controls (DCS, OSC, PM, APC) survive encode/decode", "statement": "A DCS/OSC/PM/APC introducer followed by any valid UTF-8 payload without a string terminator, and then a string terminator in 7-bit or 8-bit form, decodes to that introducer with exactly that payload and consumes exactly those bytes.", "quantifier": "every introducer in either 7- or 8-bit form, every payload string, both terminator forms, every trailing byte string", "why_tests_cant": "payload length and content are unbounded", "anchors": ["ansi/decode.go:DecodeEscape", "ansi/decode.go:decodeString", "ansi/decode.go:DecodeRune"]}
{"id": "C03", "title": "ESC sequences (including character set selection) survive encode/decode", "statement": "Encoding an ESC sequence - a bare ESC identifier, or a character set selection with its designator byte - through Escape.AppendWith or Seq.AppendTo and decoding the bytes with DecodeEscape yields the same identifier and argument.", "quantifier": "every ESC identifier and every designator byte", "why_tests_cant": "small tests only exercise CSI sequences; the case analysis over identifier ranges hides unreachable branches", "anchors": ["ansi/control.go:Escape.AppendTo", "ansi/control.go:Escape.AppendWith", "ansi/control.go:Seq.AppendTo", "ansi/decode.go:decodeESC"]}
{"id": "C04", "title": "Escape decoding is total and conserves input", "statement": "On any non-empty byte buffer DecodeEscape returns without panicking, reports a consumed count no larger than the buffer, and leaves the buffer length unchanged, modifying only bytes of the sequence it is looking at: every byte after the examined sequence is untouched.", "quantifier": "every byte buffer, valid UTF-8 or not", "why_tests_cant": "the decoder rewrites its input in place for malformed sequences; only a proof covers every malformed byte string", "anchors": ["ansi/decode.go:DecodeEscape", "ansi/decode.go:decodeESC", "ansi/decode.go:decodeCSI", "ansi/decode.go:decodeString"]}
{"id": "C05", "title": "Number decoding inverts decimal printing", "statement": "DecodeNumber applied to the decimal text of an integer (optionally preceded by ';', optionally signed), followed by the end of input or a non-digit, returns that integer and consumes exactly its text, for all integers in the accepted range; integers outside the accepted range are reported as errors rather than returned as some other value.", "quantifier": "every integer, every trailing byte string starting with a non-digit", "why_tests_cant": "2^32 values and unbounded digit strings; overflow behaviour depends on exact machine arithmetic", "anchors": ["ansi/decode.go:DecodeNumber"]}
{"id": "C06", "title": "Points survive encode/decode", "statement": "The argument of a cursor position sequence built by WithPoint decodes with DecodePoint to the same point, consuming all argument bytes.", "quantifier": "every screen point with coordinates in the accepted numeric range", "why_tests_cant": "the domain is every pair of coordinates", "anchors": ["ansi/geom.go:Point", "ansi/control.go:Escape.WithPoint", "ansi/decode.go:DecodePoint"]}
{"id": "C07", "title": "SGR attributes survive encode/decode", "statement": "The escape sequence written for an SGR attribute decodes (DecodeEscape then DecodeSGR) to the same attribute, for every combination of text attributes, 3-, 4-, 8- and 24-bit foreground and background colours; the zero attribute is written as an explicit clear.", "quantifier": "every combination of the seven attribute flags, every optional foreground colour, every optional background colour (2^59 attribute values), every trailing byte string", "why_tests_cant": "about 2^59 attributes; the tests try nineteen", "anchors": ["ansi/sgr.go:SGRAttr.AppendTo", "ansi/decode.go:DecodeSGR", "ansi/decode.go:decodeSGRColor"]}
{"id": "C08", "title": "SGR encoded size is exact", "statement": "SGRAttr.Size() equals the number of bytes AppendTo writes; Escape.Size() equals the number of bytes Escape.AppendTo writes; Seq.Size() is an upper bound of what Seq.AppendTo writes.", "quantifier": "every attribute, every escape, every sequence", "why_tests_cant": "2^59 attributes and unbounded sequences", "anchors": ["ansi/sgr.go:SGRAttr.Size", "ansi/control.go:Escape.Size", "ansi/control.go:Seq.Size"]}
{"id": "C09", "title": "SGR diff and merge are inverse", "statement": "Merging into an attribute the difference from it to a target attribute yields exactly the target; the difference to itself is empty; the difference is never a sequence that leaves stale attributes behind.", "quantifier": "every pair of attributes", "why_tests_cant": "2^118 pairs", "anchors": ["ansi/sgr.go:SGRAttr.Merge", "ansi/sgr.go:SGRAttr.Diff"]}
{"id": "C10", "title": "Foreground and background colours are stored faithfully and independently", "statement": "Combining a foreground colour, a background colour and text flags into one attribute and reading each back yields exactly what was put in; removing one leaves the others unchanged; RGB construction and component extraction are inverse; conversion to 24 bit is idempotent and keeps the RGB components.", "quantifier": "every colour (3/4/8/24 bit), every flag combination", "why_tests_cant": "2^59 combinations", "anchors": ["ansi/sgr.go:SGRColor.FG", "ansi/sgr.go:SGRColor.BG", "ansi/sgr.go:SGRAttr.FG", "ansi/sgr.go:SGRAttr.BG", "ansi/sgr.go:RGB", "ansi/sgr.go:SGRColor.To24Bit"]}
{"id": "C11", "title": "Mode controls survive encode/decode", "statement": "The set (or reset) control sequence of a terminal mode decodes to the set-mode (reset-mode) identifier with an argument that DecodeMode maps back to the same mode, private flag included.", "quantifier": "every mode number in range, private or not", "why_tests_cant": "2^32 modes", "anchors": ["ansi/modes.go:Mode.Set", "ansi/modes.go:Mode.Reset", "ansi/decode.go:DecodeMode"]}
{"id": "C12", "title": "Mouse reports decode exactly", "statement": "An xterm extended (SGR) mouse report for any button state byte and any position decodes to exactly that state and position, presses and releases being distinguished by the final byte; malformed reports (missing fields, extra bytes, state out of byte range) are rejected with an error and never decoded to an event.", "quantifier": "every state byte, every position, every malformed argument", "why_tests_cant": "2^72 reports and unbounded malformed strings", "anchors": ["ansi/mouse.go:DecodeXtermExtendedMouse"]}
{"id": "C13", "title": "Mouse state predicates classify every state", "statement": "For each of the 256 mouse states, the predicates (press, release, drag, motion, modifiers, button id) agree with the documented bit layout: no state is both a press and a release, modifiers are read independently from buttons.", "quantifier": "all 256 mouse state bytes", "why_tests_cant": "sampling tests pick a few states; the claim is about all of them jointly", "anchors": ["ansi/mouse.go:MouseState"]}
{"id": "C14", "title": "Rectangle operations are set operations", "statement": "Membership of a point in Intersect is membership in both; Union is the smallest rectangle containing both; Overlaps holds exactly when some point is in both; In is set inclusion; Eq is equality of point sets; Canon preserves well-formed rectangles and always yields a well-formed one; Add/Sub translate membership.", "quantifier": "all pairs of rectangles and all points over the integers", "why_tests_cant": "unbounded integer coordinates", "anchors": ["ansi/geom.go:Rectangle.Intersect", "ansi/geom.go:Rectangle.Union", "ansi/geom.go:Rectangle.Overlaps", "ansi/geom.go:Rectangle.In", "ansi/geom.go:Rectangle.Eq", "ansi/geom.go:Rectangle.Canon"]}
{"id": "C15", "title": "Conversion between screen and image geometry is lossless", "statement": "Converting a point or a rectangle from image space to 1-based screen space and back yields the original.", "quantifier": "every valid point and rectangle", "why_tests_cant": "unbounded coordinates", "anchors": ["ansi/geom.go:PtFromImage", "ansi/geom.go:Point.ToImage", "ansi/geom.go:RectFromImage", "ansi/geom.go:Rectangle.ToImage"]}
{"id": "C16", "title": "Palette lookup returns the closest colour", "statement": "Palette.Index returns the index of a palette colour whose squared Euclidean RGB distance to the given colour is minimal; Convert returns that colour.", "quantifier": "every non-empty palette and every colour", "why_tests_cant": "unbounded palettes, 2^24 colours", "anchors": ["ansi/colors.go:Palette.Index", "ansi/colors.go:Palette.Convert"]}
{"id": "C17", "title": "Sequence builders have value semantics", "statement": "Adding arguments to a control sequence value (With, WithInts) never changes the sequence it was derived from, appends exactly the given arguments after the existing ones, and sequences derived twice from the same base do not affect each other.", "quantifier": "every sequence value, every list of additional bytes/ints, any number of derivations", "why_tests_cant": "sharing of backing arrays shows only for specific lengths and derivation histories", "anchors": ["ansi/control.go:Seq.With", "ansi/control.go:Seq.WithInts"]}
{"id": "C18", "title": "Escape identifiers are unambiguous", "statement": "Distinct ESC / CSI function bytes have distinct identifiers, ESC and CSI identifiers never collide with each other or with control or graphic runes outside the reserved private-use range, and the byte can be recovered from the identifier.", "quantifier": "all bytes and all runes", "why_tests_cant": "a statement about all pairs of identifiers", "anchors": ["ansi/escape.go:ESC", "ansi/escape.go:CSI", "ansi/escape.go:Escape.IsEscape", "ansi/escape.go:Escape.ESC", "ansi/escape.go:Escape.CSI"]}
{"id": "C19", "title": "Grid cell addressing is exact", "statement": "For every well-formed grid, CellOffset accepts exactly the points of its bounds, returns an offset inside the cell data, and distinct points get distinct offsets.", "quantifier": "every grid size, every sub-grid, every point", "why_tests_cant": "unbounded sizes", "anchors": ["grid.go:Grid.CellOffset"]}
{"id": "C20", "title": "Sub-grids are views", "statement": "A cell read or written through a sub-grid (SubAt, SubSize, SubRect, nested in any order) is the same cell as through the parent at the same point; a sub-grid never addresses a cell outside its parent, and Full recovers all of the parent's cells.", "quantifier": "every grid, every rectangle, every nesting of sub-grid operations", "why_tests_cant": "unbounded nesting and sizes", "anchors": ["grid.go:Grid.SubRect", "grid.go:Grid.SubAt", "grid.go:Grid.SubSize", "grid.go:Grid.Full"]}
{"id": "C21", "title": "Grid resize yields a well-formed grid of the requested size", "statement": "After Resize the grid has the requested size (clamped to its parent for sub-grids), every point in its bounds has a cell, and no cell access in bounds can go out of range.", "quantifier": "every grid, sub-grid, every requested size, any sequence of resizes", "why_tests_cant": "histories of resizes with capacity reuse are unbounded", "anchors": ["grid.go:Grid.Resize"]}
{"id": "C22", "title": "Grid clear clears exactly its own cells", "statement": "Clear zeroes every cell of the grid's bounds and leaves every other cell of the parent unchanged.", "quantifier": "every grid and sub-grid content", "why_tests_cant": "unbounded sizes and contents", "anchors": ["grid.go:Grid.Clear"]}
{"id": "C23", "title": "Grid equality means same size and contents", "statement": "Grid.Eq holds exactly when both grids have the same size and the same cell at every point, treating zero runes as the given default rune.", "quantifier": "every pair of grids", "why_tests_cant": "unbounded sizes; needs same-length grids with different shapes", "anchors": ["grid.go:Grid.Eq"]}
{"id": "C24", "title": "Opaque grid drawing copies exactly the overlapping area", "statement": "DrawGrid without styles copies to each destination cell the source cell at the same relative position wherever both exist, and changes no other destination cell; it never panics on well-formed grids.", "quantifier": "every pair of grids or sub-grids (separate storage), every content", "why_tests_cant": "unbounded sizes and offsets", "anchors": ["draw.go:DrawGrid", "draw.go:copyGrid"]}
{"id": "C25", "title": "Styled grid drawing applies the style to exactly the overlapping area", "statement": "DrawGrid with a style replaces each destination cell in the overlap by the style's result for the destination point, prior and source cell (keeping the prior cell when the result rune is 0), changes no cell outside the overlap, and never panics.", "quantifier": "every pair of grids, every style function", "why_tests_cant": "any style function over any pair of differently sized grids", "anchors": ["draw.go:DrawGrid"]}
{"id": "C26", "title": "Styles compose in order", "statement": "Combining styles applies each in the given order; combining is associative; no-op styles are neutral; the no-op style itself passes rune and attribute through.", "quantifier": "every list of styles (nested in any way), every cell", "why_tests_cant": "higher-order and unbounded", "anchors": ["style.go:Styles", "style.go:NoopStyle"]}
{"id": "C27", "title": "Bitmap braille rendering is exact", "statement": "Bitmap.Rune at a point is the braille pattern whose eight dots are exactly the eight bitmap bits of the 2x4 block at that point; DrawBitmap draws exactly those runes in the overlap and touches nothing else.", "quantifier": "every bitmap, every point, every destination grid", "why_tests_cant": "unbounded bitmaps; 256 patterns at every boundary position", "anchors": ["bitmap.go:Bitmap.Rune", "draw.go:DrawBitmap"]}
{"id": "C28", "title": "Bitmap loading and addressing are exact", "statement": "Parsing lines and loading them yields a bitmap whose bit at (x, y) is set exactly when the text marks it; Set then Get agree and do not disturb other bits; loading never panics and pads incomplete rows with unset bits.", "quantifier": "every bitmap size, every line list, every point", "why_tests_cant": "unbounded sizes", "anchors": ["bitmap.go:ParseBitmap", "bitmap.go:Bitmap.Load", "bitmap.go:Bitmap.Get", "bitmap.go:Bitmap.Set"]}
{"id": "C29", "title": "A virtual screen's cursor never leaves the screen", "statement": "Whatever bytes, runes, sequences or cursor movements are applied to a non-empty virtual screen, its cursor stays within the screen bounds, and no cell outside is addressed.", "quantifier": "every history of writes and cursor operations, every screen size", "why_tests_cant": "unbounded byte streams", "anchors": ["state.go:Screen.ProcessANSI", "state.go:Screen.To", "screen.go:VirtualScreen"]}
{"id": "C30", "title": "Virtual screen writes always return", "statement": "Writing any byte string to a virtual cursor or a virtual screen terminates without panicking.", "quantifier": "every byte string", "why_tests_cant": "a non-terminating or panicking input is one needle in an infinite haystack", "anchors": ["state.go:Cursor.processEscape", "buffer.go:Buffer.Process"]}
{"id": "C31", "title": "Virtual screen contents do not depend on write chunking", "statement": "Writing a byte string to a virtual screen in one call or split into any chunks yields the same cells and cursor.", "quantifier": "every byte string and every way of splitting it", "why_tests_cant": "exponentially many splits of unbounded strings", "anchors": ["buffer.go:Buffer.Process", "screen.go:VirtualScreen.Write"]}
{"id": "C32", "title": "Virtual screens make progress on every input", "statement": "No input makes a virtual screen stop interpreting later input: after any bytes, further complete sequences and text are still interpreted.", "quantifier": "every byte string prefix and every later write", "why_tests_cant": "a wedged state requires a specific malformed sequence", "anchors": ["buffer.go:Buffer.Process", "ansi/decode.go:decodeESC"]}
{"id": "C33", "title": "Printing text changes only the cells under the cursor", "statement": "Writing a graphic rune stores it with the current attribute at the cursor, changes no other cell, and advances the cursor to the next cell with wrap at the right margin.", "quantifier": "every screen state, every rune, every attribute", "why_tests_cant": "all states and positions, including the corner positions", "anchors": ["state.go:Screen.ProcessANSI"]}
{"id": "C34", "title": "Erase commands clear exactly the documented regions", "statement": "ED 0/1/2 and EL 0/1/2 erase exactly the region from the cursor (inclusive) to the end, from the start to the cursor (inclusive), or everything, of the display or line respectively, and leave every other cell unchanged; an omitted parameter means 0.", "quantifier": "every screen content and cursor position", "why_tests_cant": "boundary positions for every screen size", "anchors": ["state.go:Screen.ProcessANSI", "state.go:Screen.clearRegion"]}
{"id": "C35", "title": "Line feed at the bottom scrolls", "statement": "A line feed moves the cursor down one line, or when on the last line scrolls the contents up by one line, dropping the first line and clearing the last.", "quantifier": "every screen content and cursor position", "why_tests_cant": "contents and sizes are unbounded", "anchors": ["state.go:Screen.linefeed", "state.go:Screen.scrollBy"]}
{"id": "C36", "title": "Cursor movement sequences reach their target", "statement": "The sequence returned by Cursor.To, when interpreted by a terminal whose cursor is where the Cursor state says, moves the terminal's cursor to the requested point; the tracked state afterwards equals the target.", "quantifier": "every current cursor state (known or unknown) and every target point", "why_tests_cant": "all pairs of positions", "anchors": ["state.go:Cursor.To", "state.go:Cursor.NewLine"]}
{"id": "C37", "title": "Attribute and visibility updates reach their target", "statement": "After the sequence returned by Cursor.MergeSGR / Show / Hide is interpreted by a terminal consistent with the tracked state, the terminal's attribute / visibility equals the requested one; nothing is written when already there.", "quantifier": "every known or unknown cursor state and every attribute", "why_tests_cant": "2^118 attribute pairs plus unknown states", "anchors": ["state.go:Cursor.MergeSGR", "state.go:Cursor.Show", "state.go:Cursor.Hide"]}
{"id": "C38", "title": "A full redraw reproduces the grid", "statement": "Interpreting the bytes of a full redraw on a terminal of the grid's size, whatever it showed before, leaves exactly the grid's contents on the terminal (blank where the grid is empty).", "quantifier": "every grid size and content, every previous terminal content, every cursor state consistent with the terminal", "why_tests_cant": "unbounded contents; correctness depends on the interplay of relative movement, attribute diffs and wrap", "anchors": ["render.go:writeGridFull", "state.go:Screen.update"]}
{"id": "C39", "title": "A differential update reproduces the grid", "statement": "Interpreting the bytes of a differential update on a terminal that shows the prior grid leaves exactly the new grid's contents on the terminal, the same as a full redraw would.", "quantifier": "every pair of prior and new grid of equal size, every cursor state consistent with the terminal", "why_tests_cant": "pairs of unbounded contents", "anchors": ["render.go:writeGridDiff", "state.go:Screen.update"]}
{"id": "C40", "title": "Unchanged screens write nothing", "statement": "Flushing a screen twice without changes in between writes no bytes the second time.", "quantifier": "every screen content and cursor", "why_tests_cant": "unbounded contents", "anchors": ["screen.go:ScreenDiffer.WriteTo", "render.go:writeGridDiff"]}
{"id": "C41", "title": "Interrupted screen flushes resume without loss", "statement": "If a screen flush is interrupted by a would-block condition and retried until it completes, the terminal receives exactly the bytes it would have received without interruption, and the tracked terminal state afterwards is the same as without interruption.", "quantifier": "every screen, every point at which the write would block, any number of retries", "why_tests_cant": "every crash point of every output string", "anchors": ["screen.go:ScreenDiffer.WriteTo", "buffer.go:Buffer.WriteTo"]}
{"id": "C42", "title": "A failed flush forces a full redraw", "statement": "After a flush fails with an error other than would-block, pending bytes are dropped, and the next flush redraws the whole screen.", "quantifier": "every screen, every partial write length, every error", "why_tests_cant": "all failure points", "anchors": ["screen.go:ScreenDiffer.WriteTo", "screen.go:ScreenDiffer.Invalidate"]}
{"id": "C43", "title": "Virtual cursor tracks what it writes", "statement": "For any series of operations on a virtual cursor, its cursor state equals the state obtained by interpreting the bytes it has queued, starting from the last flushed state.", "quantifier": "every series of writes, movements, attribute changes and flushes", "why_tests_cant": "unbounded histories", "anchors": ["cursor.go:VirtualCursor"]}
{"id": "C44", "title": "Buffers deliver exactly the bytes written, once and in order", "statement": "Bytes written to a Buffer are delivered to the destination writer exactly once and in order, whatever partial writes and would-block errors occur; processing them does not alter what is delivered.", "quantifier": "every series of writes, every schedule of partial writes and errors", "why_tests_cant": "all schedules of partial writes", "anchors": ["buffer.go:Buffer.WriteTo", "buffer.go:Buffer.Process", "buffer.go:Buffer.Discard"]}
{"id": "C45", "title": "Output flush delivers everything and restores file flags", "statement": "Output.Flush writes all pending bytes, falling back to a blocking write when a non-blocking write would block, and always restores the file's status flags.", "quantifier": "every write schedule and every initial flag value", "why_tests_cant": "schedules of would-block results are timing dependent", "anchors": ["output.go:Output.Flush", "output.go:Output.blockingFlush"]}
{"id": "C46", "title": "Input decoding consumes each byte once and holds incomplete sequences", "statement": "Input.Decode never invents or drops input: decoding until nothing is available yields the same events whether a control sequence arrives in one read or split across reads, and each byte belongs to exactly one event.", "quantifier": "every byte stream and every split of it into reads", "why_tests_cant": "read boundaries are timing dependent", "anchors": ["input.go:Input.Decode", "input.go:Input.decodeEscape", "input.go:Input.decodeRune"]}
{"id": "C47", "title": "Blocking mode changes are honoured", "statement": "After a blocking read has been requested the input file is in blocking mode, after a non-blocking read it is in non-blocking mode, and leaving the context restores the original file flags.", "quantifier": "every sequence of blocking and non-blocking reads and context entries and exits", "why_tests_cant": "histories of mode switches", "anchors": ["input.go:Input.ReadMore", "input.go:Input.ReadAny", "input.go:Input.setNonblock", "input.go:Input.buildFlags"]}
{"id": "C48", "title": "Recorded input replays identically", "statement": "Reading back a recording of an input session yields the same sequence of input frames (time order, bytes) as were read.", "quantifier": "every sequence of input frames", "why_tests_cant": "unbounded sessions and byte contents", "anchors": ["input.go:Input.SetRecording", "input.go:ReadInputReplay"]}
{"id": "C49", "title": "Contexts are entered in order and exited in reverse", "statement": "Combined contexts are entered in order stopping at the first failure, exited and closed in reverse order regardless of failures, reporting the first error; combining is associative and ignores nil; combining twice from the same base does not change earlier combinations.", "quantifier": "every nesting of contexts and every outcome of every member", "why_tests_cant": "2^n outcome combinations over unbounded nesting", "anchors": ["context.go:Contexts"]}
{"id": "C50", "title": "A terminal session is always unwound", "statement": "However RunWith's function ends (normally, with an error, by panic) and however RunWith and RunWithout are nested, on return of the outermost RunWith the terminal contexts are exited and closed: every enter is followed by an exit, close happens exactly once and last, and the returned error is the first that occurred.", "quantifier": "every program of nested RunWith/RunWithout calls with arbitrary outcomes", "why_tests_cant": "all nestings and all failure points", "anchors": ["term.go:Term.RunWith", "term.go:Term.RunWithout"]}
{"id": "C51", "title": "Terminal attributes are restored", "statement": "Leaving an Attr context restores exactly the terminal settings found on entering, whatever raw/echo changes happened in between.", "quantifier": "every initial setting and every sequence of mode changes", "why_tests_cant": "2^n settings and unbounded histories", "anchors": ["attr.go:Attr.Enter", "attr.go:Attr.Exit", "attr.go:Attr.SetRaw", "attr.go:Attr.SetEcho"]}
{"id": "C52", "title": "Terminal modes are undone in reverse order", "statement": "Leaving a Mode context writes, for every mode added, its reset sequence, in the reverse of the order in which they were set.", "quantifier": "every list of modes and mode sequences added in any grouping", "why_tests_cant": "unbounded lists and groupings", "anchors": ["mode.go:Mode.AddMode", "mode.go:Mode.AddModePair", "mode.go:Mode.Enter", "mode.go:Mode.Exit"]}
{"id": "C53", "title": "Event queue queries consume exactly what they count", "statement": "Counting or consuming queries on an event queue (runes, presses in a box, scroll, cursor movement, mouse, terminal rune) return the exact count/sum over not yet consumed matching events, strike exactly those, and leave all other events in place; repeating a query finds nothing.", "quantifier": "every event queue content and every query", "why_tests_cant": "unbounded queues", "anchors": ["x/platform/event.go:Events"]}
{"id": "C54", "title": "Decoding bytes into events is total", "statement": "Events.DecodeBytes terminates on every byte string, and the events cover the input: concatenating what each event consumed reproduces the input length.", "quantifier": "every byte string", "why_tests_cant": "unbounded malformed strings", "anchors": ["x/platform/event.go:Events.DecodeBytes"]}
{"id": "C55", "title": "Line editing behaves like a list of runes with a cursor", "statement": "Inserting a graphic rune puts it at the cursor and advances; delete removes the rune before the cursor; arrow keys move within [0, length]; the buffer stays valid UTF-8 of the edited text.", "quantifier": "every sequence of edit events, every text", "why_tests_cant": "unbounded edit histories on multi-byte text", "anchors": ["x/platform/editline.go:EditLine"]}
{"id": "C56", "title": "Log sink indexes every line", "statement": "The log sink's newline index lists exactly the offsets of the newlines in its buffered contents (plus an implicit end for an unterminated last line), whatever the sequence of writes and reads.", "quantifier": "every sequence of writes and reads", "why_tests_cant": "unbounded histories with arbitrary chunking", "anchors": ["x/platform/log.go:LogSink.Write", "x/platform/log.go:LogSink.Read"]}
{"id": "C57", "title": "Sized blobs survive a write/read cycle", "statement": "Data written through a sized writer at any file position and finished can be read back with readSized, which returns exactly that data and leaves the reader at the following bytes.", "quantifier": "every payload, every chunking into writes, every starting offset", "why_tests_cant": "unbounded payloads and chunkings", "anchors": ["x/platform/replay.go:sizedWriter", "x/platform/replay.go:readSized"]}
{"id": "C58", "title": "Background workers are all stopped", "statement": "Starting workers stops at the first failure; stopping calls every worker in reverse order and reports the first error; notifying never blocks.", "quantifier": "every list of workers and outcomes", "why_tests_cant": "2^n outcomes", "anchors": ["x/platform/bg.go:BackgroundWorkers", "x/platform/bg.go:bgWorkerCore"]}
{"id": "C59", "title": "Signals are delivered without blocking and at most once pending", "statement": "Sending or receiving a pending signal never blocks; AsErr reports a pending signal exactly once; after Close no more signals are reported.", "quantifier": "every interleaving of signal arrivals and polls", "why_tests_cant": "interleavings", "anchors": ["signal.go:Signal"]}
{"id": "C60", "title": "Terminfo strings are read exactly", "statement": "Reading a capability from a well-formed compiled terminfo file yields exactly the NUL terminated string stored at its table offset, whatever sizes the individual reads return.", "quantifier": "every well-formed file, every read chunking", "why_tests_cant": "unbounded files and read schedules", "anchors": ["terminfo/read.go:Terminfo.ReadFrom", "terminfo/read.go:readNullString"]}
{"id": "C61", "title": "Stall durations are reported exactly once", "statement": "A flush that had to switch to blocking mode records one duration, any other none; consuming harvests report every recorded duration exactly once and in order as long as no more stalls happen between them than are tracked, and never more than that number at once.", "quantifier": "every history of flushes and harvests, every capacity", "why_tests_cant": "stalls are timing dependent and histories unbounded", "anchors": ["output.go:Output.TrackStalls", "output.go:Output.Stalls", "output.go:Output.recordStall"]}
{"id": "C62", "title": "Terminal attributes in effect are those asked for", "statement": "While an Attr context is entered, the terminal's settings are exactly those found on entering, changed for the raw and echo modes last asked for (echo off by default in raw mode and on in normal mode); other terminals are not touched.", "quantifier": "every initial setting and every sequence of SetRaw and SetEcho calls before and after entering", "why_tests_cant": "2^n settings and unbounded histories", "anchors": ["attr.go:Attr.SetRaw", "attr.go:Attr.SetEcho", "attr.go:Attr.modifyTermios"]}
{"id": "C63", "title": "An edited line is displayed within its box", "statement": "While a line is being edited, the part of its text that is drawn fits the width of its box, all of it is drawn if it fits, it contains or ends at the cursor, and the user's cursor is placed at the cursor's position inside the box; nothing is drawn elsewhere.", "quantifier": "every text, cursor, view and box, every batch of events", "why_tests_cant": "unbounded texts, boxes and event batches; scrolling depends on the whole history", "anchors": ["x/platform/editline.go:EditLine.Update"]}
{"id": "C64", "title": "A submitted or cancelled line is final", "statement": "Once Enter or Escape has been handled, the line's text and outcome no longer change until it is reset, whatever events follow.", "quantifier": "every line and every sequence of later events, in the same or in later batches", "why_tests_cant": "depends on how events are grouped into frames", "anchors": ["x/platform/editline.go:EditLine.Update", "x/platform/editline.go:EditLine.Done"]}
{"id": "C65", "title": "Stopping the log's background writer writes everything", "statement": "Everything logged while a log file is set reaches that file in order; notifying makes the background writer write what is held; stopping the writer returns, with everything logged written to the file or an error.", "quantifier": "every schedule of the program and the background writer, every outcome of the file writes", "why_tests_cant": "all interleavings of two goroutines; the losing ones are rare", "anchors": ["x/platform/log.go:LogSink.Start", "x/platform/log.go:LogSink.Stop", "x/platform/log.go:LogSink.flushWorker", "x/platform/log.go:LogSink.SetFile"]}
{"id": "C66", "title": "A recorded session plays back", "statement": "Playing a recording back restores the recorded state bytes, runs the client once for each recorded frame in the recorded order, at the recorded time and screen size and with exactly the recorded input, and then ends; keys typed during the replay can hold or step it but never skip, repeat or reorder a frame.", "quantifier": "every session (state bytes, size, sequence of recorded frames of well-formed input), every way the file is read in pieces, every sequence of keys", "why_tests_cant": "sessions, read chunkings and key histories are unbounded", "anchors": ["x/platform/replay.go:Platform.setRecording", "x/platform/replay.go:readReplay", "x/platform/replay.go:replay.update", "x/platform/replay.go:parseSize"]}
{"id": "C67", "title": "Terminal descriptions are found by name", "statement": "Load returns the description from the first file that opens in the documented search order (TERMINFO alone, or home, TERMINFO_DIRS and the default directory; plain before hexadecimal directory), falls back to a builtin (exact name, then the first compatible one) when the database does not provide it, returns an error for the empty name, and keeps returning the same description once loaded.", "quantifier": "every environment, set of files and read behaviours, table of builtins, history of loads and name", "why_tests_cant": "environments, file contents, tables and load histories are unbounded", "anchors": ["terminfo/terminfo.go:Load", "terminfo/terminfo.go:SearchPath", "terminfo/builtin.go:GetBuiltin"]}
{"id": "C68", "title": "The frame ticker ticks while the terminal is entered, and only then", "statement": "However the ticker is entered and exited, nothing panics and exactly one timer of the chosen period runs while it is entered and none otherwise; Wait returns a tick of the timer running when it was called, or the zero time once the ticker is exited, and the zero time at once if it is not active; the FrameRate option sets the period to one second over the rate.", "quantifier": "every sequence of Enter, Exit and ticks, every period and frame rate", "why_tests_cant": "arbitrary sequences of switches interleaved with ticks; leaked timers are invisible to tests", "anchors": ["x/platform/tick.go:Ticker.Enter", "x/platform/tick.go:Ticker.Exit", "x/platform/tick.go:Ticker.Wait", "x/platform/options.go:FrameRate"]}
{"id": "C69", "title": "Frame timing statistics describe the last window of frames", "statement": "At the end of each window of frames the statistics are of exactly that window: elapsed time, least and greatest time between frames, and quartiles; between ends of windows they do not change; the minimum is at most every quartile; any frame rate may be used.", "quantifier": "every window length and every increasing sequence of frame times", "why_tests_cant": "arbitrary sequences of times; order statistics need a proof of sortedness", "anchors": ["x/platform/diag.go:TimingData.update"]}
{"id": "C70", "title": "Resource usage is reported over the spans asked for", "statement": "For each span asked for, the delta reported is between the latest sample and the oldest one within that span, for any history of samples in the ring.", "quantifier": "every ring size, sample history and list of spans", "why_tests_cant": "ring wrap-around combined with arbitrary sample times", "anchors": ["x/platform/diag.go:rusageData.computeDeltas", "x/platform/diag.go:rusageData.update"]}
{"id": "C71", "title": "Output stalls are counted and logged once each", "statement": "The stall statistics of a window of frames are of exactly the stalls in it; every stall is logged once; the part of time spent in stalls is at most all of it.", "quantifier": "every window length and every sequence of frames and stalls", "why_tests_cant": "arbitrary histories of stalls relative to the window", "anchors": ["x/platform/diag.go:Telemetry.update", "x/platform/diag.go:StallsData.update", "output.go:Output.Stalls"]}
{"id": "C72", "title": "A stop signal or an error ends the run", "statement": "A stop signal, an error reading input or the client's error ends Run with the first such error, after exactly one more frame in which the client knows of it and of which nothing is written; otherwise every frame is flushed.", "quantifier": "every platform state, client and sequence of frames, with any signals polled in each, replaying or not", "why_tests_cant": "signals may arrive in any number and order in any frame", "anchors": ["x/platform/platform.go:Platform.Run", "x/platform/platform.go:Context.Update", "x/platform/replay.go:replay.update"]}
{"id": "C73", "title": "Every input event is given to the client once", "statement": "The events of all input read are given to the client, in the frame they are read in, less the platform's own control keys; an event is not given in more than one frame.", "quantifier": "every platform state, client and sequence of frames, with any signals polled in each", "why_tests_cant": "depends on how input signals fall into frames and on what clients leave behind", "anchors": ["x/platform/platform.go:Platform.Run", "x/platform/platform.go:Context.Update"]}
{"id": "C74", "title": "Clients redraw when needed, on a blank screen of the terminal's size", "statement": "The client is told to redraw exactly if Ctrl-L was typed, the screen has no size or not the one the client last ran with; on redraw everything is written again; the client's screen has the terminal's size and is blank.", "quantifier": "every platform state, client and frame, with any resizes and input polled", "why_tests_cant": "sequences of resizes relative to frames are unbounded", "anchors": ["x/platform/platform.go:Context.Update", "screen.go:TermScreen.SizeToTerm", "x/platform/platform.go:Context.runClient"]}
{"id": "C75", "title": "After every frame the terminal shows what the client drew", "statement": "In every frame that ends without error the terminal displays exactly the client's screen and cursor, however the terminal was resized before.", "quantifier": "every client, terminal, and sequence of frames, resizes and input", "why_tests_cant": "unbounded histories of frames and resizes, all screen sizes and contents", "anchors": ["x/platform/platform.go:Platform.Run", "screen.go:ScreenDiffer.WriteTo", "output.go:Output.Flush"]}
{"id": "C76", "title": "A replay runs the client with the recorded input, times and sizes", "statement": "While replaying the client is given the events, time and size recorded in the frame; when the replay is stopped it goes on with the terminal's.", "quantifier": "every recording, platform state, client and frame, with any keys typed", "why_tests_cant": "all recordings and all interleavings with pausing, stepping and typing", "anchors": ["x/platform/replay.go:replay.update", "x/platform/platform.go:Context.Update"]}
{"id": "C77", "title": "Time stands still for the client while paused", "statement": "While the platform is paused the client's time is that of the last frame before, for any number of frames; otherwise it is the frame's time.", "quantifier": "every platform state, client and sequence of frames", "why_tests_cant": "any number of paused frames", "anchors": ["x/platform/platform.go:Context.runClient", "x/platform/platform.go:Platform.Run"]}
{"id": "C78", "title": "Each style changes exactly the cells and attributes it names", "statement": "Drawing with a single style treats every cell as documented: ZeroRuneStyle empties cells holding its rune, FillRuneStyle fills cells without a rune, DefaultRuneStyle fills those that have attributes, AttrStyle sets the attributes of cells with a rune, TransparentRunes keeps the prior rune under empty ones, TransparentAttrBG keeps the prior background under cells without one, TransparentAttrFG the prior foreground and flags under cells with neither, and TransparentAttrBGFG acts as the last two combined. Nothing else about the cell changes.", "quantifier": "for all styles, runes, prior runes and all attribute words (flags, foreground, background, each present or absent)", "why_tests_cant": "Attribute words have three independent parts packed in one integer; sampled draws do not show that masks never leak from one part into another.", "anchors": ["style.go:74-160"]}
{"id": "C79", "title": "WriteBitmap writes one rune per block of bits", "statement": "WriteBitmap writes one line per four rows of bits, one braille rune per block of two by four bits in it, and a line break between lines, with the attributes its style gives; no bit is lost at ragged right or bottom edges and the output is the same for a part of a larger bitmap as for a bitmap of its own.", "quantifier": "for all bitmaps, sizes, strides and styles", "why_tests_cant": "Sizes that are not multiples of the block, offsets within larger bitmaps and styles with changing attributes combine without bound.", "anchors": ["render.go:111-157"]}
{"id": "C80", "title": "The log view's window stays within the log and moves as scrolled", "statement": "However far it has been scrolled and however long the log, the log view shows as many consecutive lines as fit, all of them in the log; while following it ends with the newest line; once scrolled it stays on the same lines while the log grows, scrolling by d lines moves it by d lines as far as the log reaches, and scrolling back to the end makes it follow again.", "quantifier": "for all view states, log lengths, view heights and scroll amounts", "why_tests_cant": "The window depends on unbounded combinations of scroll position, log length and height, and errors show only at particular offsets from the end.", "anchors": ["x/platform/hud.go:672-702"]}
{"id": "C81", "title": "The log view draws its window and nothing else", "statement": "Updating the log view toggles it when its bar is pressed an odd number of times, scrolls it by the wheel events in its area, consumes exactly those events, never panics, and draws each line in view on a row of its own at the bottom of the screen, cut down to the width with an ellipsis, below a header with the line numbers if expanded; all other cells keep their contents.", "quantifier": "for all screen sizes, logs of printable lines, event queues and view states", "why_tests_cant": "Layout depends on the relation between screen height, view height, number of lines and each line's length; a few fixed cases cannot cover them.", "anchors": ["x/platform/hud.go:605-670", "x/platform/hud.go:799-812", "x/platform/log.go:33-35"]}
{"id": "C82", "title": "A terminal screen gives the terminal back, and can be entered again", "statement": "TermScreen.Exit writes what it takes for the terminal, whatever has been drawn on it, to show its cursor and have no attributes set, and changes nothing else; it writes nothing if that is known to be so already; a failing write leaves the rest pending. After Exit and a later Enter that can read the size, on a terminal that shows anything, the screen has that size and the next flush shows the frame drawn. (Found false: a failed Exit can be repeated; an Enter that cannot read the size does not believe the terminal unchanged.)", "quantifier": "all sessions of a TermScreen with a terminal, all systems (partial writes, errors), all terminal states in between, all frames", "why_tests_cant": "the bytes depend on the whole history of the tracked cursor state, and the state of the terminal after resuming is arbitrary", "anchors": ["screen.go:193-221 TermScreen.Enter, Exit, SizeToTerm", "screen.go:45-69 Reset, Resize, Invalidate"]}
{"id": "C83", "title": "The exit status tells of errors", "statement": "MustRun returns if and only if the error is nil; otherwise something is logged and the process ends with a failure status, which is the error's own exit code if that is between 1 and 255, and 256-n for signal n. (Found false for exit codes that are multiples of 256.)", "quantifier": "all errors, with any exit code", "why_tests_cant": "MustRun ends the process; exit codes are unbounded integers of which only 8 bits are kept", "anchors": ["term.go:189-215 ExitError, MustRun", "signal.go:104-112 SignalError.ExitCode"]}
{"id": "C84", "title": "Opening the terminal neither leaks nor closes the wrong file", "statement": "openTermFiles keeps given files that are terminals, replaces others by /dev/tty opened for reading or writing, opens nothing else, never closes a given file, and closes what it opened if it fails.", "quantifier": "all combinations of terminals, other files, and outcomes of opening", "why_tests_cant": "needs processes with and without controlling terminal, and failures of the second open only", "anchors": ["term.go:11-46 OpenTerm, openTermFiles"]}
{"id": "C85", "title": "Suspend returns once the process is continued", "statement": "Suspend returns without error only if SIGCONT has been sent since; it returns if SIGCONT is passed on while it is receiving; it does not listen for signals any more afterwards; for an active terminal the context is exited before and entered again afterwards, and the process is not stopped if the exit fails. (Found false: it returns after the SIGCONT that ends the stop, whatever the schedule; the unbuffered channel may miss it.)", "quantifier": "all schedules of Suspend, package os/signal and whoever continues the process; all contexts", "why_tests_cant": "a race between goroutines around the stopping of the process", "anchors": ["term.go:169-187 Suspend", "term.go:150-167 RunWithout"]}
{"id": "C86", "title": "Ctrl-R records, then replays", "statement": "Ctrl-R typed an odd number of times in a frame starts a recording if none is being made, and otherwise ends it and ends Run with the replay-done error and the recording loaded, so that the next Run replays it; if the recording cannot be loaded Run ends with that error and nothing is replayed; an error polled in the same frame takes precedence. Typed an even number of times it changes nothing.", "quantifier": "every platform state without a replay, client, input, polled signals and outcome of creating and loading recordings", "why_tests_cant": "all interleavings of Ctrl-R with other input, errors and file failures", "anchors": ["x/platform/platform.go:Context.Update", "x/platform/replay.go:Platform.toggleRecRep"]}
{"id": "C87", "title": "Every Run of a loaded recording replays it from its state", "statement": "With a recording loaded, each Run restores the recorded state and runs the client once per recorded frame, in order, with the frame's input, time and size, and then ends with the replay-done error; so a client that depends only on time, input and size goes through the same states in every Run, whatever the ticks, the terminal's size and the writes do.", "quantifier": "every recording, client, number of Runs, terminal sizes and write outcomes", "why_tests_cant": "determinism over unbounded recordings, Runs and environments", "anchors": ["x/platform/platform.go:Platform.Run", "x/platform/replay.go:replay.update", "x/platform/state.go:Platform.readState"]}
{"id": "C88", "title": "DecodeSGR reads SGR parameters as a terminal does", "statement": "For any list of parameters a terminal understands, DecodeSGR returns, without an error, the attribute that has the same effect on a terminal's rendition, having read the whole argument; at a parameter it does not know it reports an error and returns the attribute of the parameters before it.", "quantifier": "every list of SGR parameters, in every order and colour form", "why_tests_cant": "unbounded parameter lists and all renditions they may be applied to", "anchors": ["ansi/decode.go:DecodeSGR", "ansi/decode.go:decodeSGRColor"]}
{"id": "C89", "title": "to24bit changes how colours are written and nothing else", "statement": "The to24bit filter terminates on every input, writes characters and control sequences as it read them, and replaces SGR controls that set colours of the palette by controls of the same effect that give the colours by their components, however its input is divided into reads.", "quantifier": "every input and every division of it into reads", "why_tests_cant": "unbounded inputs, all ways to divide them, all terminal renditions", "anchors": ["cmd/to24bit/main.go:processMore", "cmd/to24bit/main.go:process"]}
{"id": "C90", "title": "Grids convert to lines of text and back", "statement": "ParseGridLines returns a grid of the cells that a terminal would show for the lines, and panics on lines of different lengths and on any control other than SGR; GridLines and AttrsToCtls produce lines that a terminal shows as the grid's cells, and ParseGridLines of GridLines returns the same cells; GridRowData returns the rows of the grid, and RunesToLines their text, without changing the grid.", "quantifier": "every list of lines, every grid and part of a grid, every fill rune", "why_tests_cant": "these helpers are what the tests compare with; unbounded grids, attributes and lines", "anchors": ["test/grid.go:ParseGridLines", "test/grid.go:parseGridLine", "test/grid.go:GridLines", "test/grid.go:GridRowData", "test/grid.go:RunesToLines", "test/grid.go:AttrsToCtls"]}
{"id": "C91", "title": "Lines drawn on a bitmap follow the segment", "statement": "drawLine terminates for every two end points and sets exactly the pixels of the segment that lie on the canvas: the points run from one end to the other, each adjacent to the one before, inside the rectangle of the ends and within half a pixel of the true line; drawing it the other way round sets the same pixels. The command line demo's canvas has the width asked for and room for all squares; the interactive demo's canvas has the size of the screen after every update, whatever was scrolled.", "quantifier": "every two points on or off the canvas, every bitmap, every canvas parameter, every sequence of updates", "why_tests_cant": "unbounded end points and sizes; half pixel ties and termination of an error-accumulating loop are not settled by samples", "anchors": ["cmd/lolwut/main.go:drawLine", "cmd/lolwut/main.go:setup", "cmd/lolwut/main.go:parseArg", "cmd/lolwut/interact.go:Update"]}
{"id": "C92", "title": "Profiles cover the run they are configured for", "statement": "The platform's configuration takes each file name from the first of the command line and the options that gives one, and honours the timing settings. A CPU, trace or heap profile context is active exactly while its profiler runs; entering starts it, exiting always stops it and leaves in its file what was gathered since it was entered, through suspends, file changes and failing calls; nothing runs after the last exit and no other file is written.", "quantifier": "every configuration, every sequence of operations, every pattern of operating system failures, every stream of samples", "why_tests_cant": "failures of seek, truncate, sync and start in every order over unbounded histories, and global profiler state, are not reachable from unit tests", "anchors": ["x/platform/config.go:Merge", "x/platform/config.go:AddFlags", "x/platform/config.go:setup", "x/platform/config.go:Enter", "x/platform/config.go:Exit", "x/platform/config.go:start", "x/platform/config.go:stop", "x/platform/config.go:create", "x/platform/config.go:take"]}
{"id": "C93", "title": "Colour models combine in order and keep the colours they have", "statement": "ColorModels combined in any nesting with nils convert as the given models one after the other from left to right, and values made before keep converting as before. Converting with a palette twice is the same as once, and a colour a palette has is kept. SGRColorCanon never changes the colour meant and names exactly those colours that have an 8-bit name; upgrading to 24 bits and mapping back returns the colour. A theme replaces the first colours only, and its classic colours have their hues. The palette command lists every colour under its number with any model.", "quantifier": "every nesting of combinations, every growth policy of slices, every palette, every colour, every theme, every flag value", "why_tests_cant": "aliasing depends on slice growth and on the history of combinations; palettes and colours range over 2^25 values per entry", "anchors": ["ansi/colors.go:ColorModels", "ansi/colors.go:Convert", "ansi/colors.go:Index", "ansi/colors.go:SGRColorCanon", "cmd/palette/main.go:Set", "cmd/palette/main.go:main"]}
{"id": "C94", "title": "The decode command notes or strips every escape and passes the text on", "statement": "Run as a filter, decode writes the characters of its input unchanged and in order, and in place of each escape a note of what it is, or nothing with the strip flag; it never panics, ends with its input, loses nothing, and succeeds on a complete input; stripped output contains no escapes. How the input is divided into reads makes no difference. Interactively it shows every escape once and in order, and quits, clears or suspends exactly when the same key comes twice in a row.", "quantifier": "every byte stream, every division of it into reads, every buffer fill, every sequence of input, signals and resizes", "why_tests_cant": "the division into reads, and where the buffer happens to be full, is decided by the operating system; streams and sessions are unbounded", "anchors": ["cmd/decode/main.go:runBatch", "cmd/decode/main.go:processBatch", "cmd/decode/main.go:readMore", "cmd/decode/main.go:runInteractive", "cmd/decode/main.go:handle"]}
{"id": "C95", "title": "Printed names identify values and are safe to show", "statement": "No two characters or escapes print the same; escapes print as ESC+, CSI+ or ^ and their byte, others as documented. Sequences that print the same write the same bytes, and the arguments can be read back from the print. Colours and attributes that print the same are the same, and an attribute's words are those of its flags and colours. Nothing printed contains a character that is not printable, whatever the arguments of a sequence are.", "quantifier": "every rune, every sequence built with any arguments, every colour and attribute, every table of printable characters", "why_tests_cant": "uniqueness is a statement about all pairs of values; arguments are arbitrary bytes, including escapes that a terminal would act on", "anchors": ["ansi/escape.go:String", "ansi/control.go:String", "ansi/sgr.go:String", "ansi/escape.go:C1Names"]}
{"id": "C96", "title": "The HUD's top line shows every segment and toggles what is pressed", "statement": "The line at the top shows, from right to left and one cell apart, the time, frame rate, profiling sign, size, flushed bytes and mouse; no segment hides another, cells outside them keep what the program drew. Pressing the time, rate or sign an odd number of times between frames toggles its details; those presses are taken, all other input stays. Drawing the HUD neither crashes nor moves the program's cursor.", "quantifier": "every terminal size, every text of the segments, every sequence of input events, every screen the program drew", "why_tests_cant": "texts vary with time and sizes, and any number and order of presses can arrive in a frame; a crash needs one unlucky size", "anchors": ["x/platform/hud.go:Update", "x/platform/hud.go:rightSegment"]}
{"id": "C97", "title": "HUD details are drawn in the boxes that are clickable", "statement": "Headers, key/value rows, buttons and settings are drawn at the right edge exactly in the boxes in which presses count for them: headers with a rule of 16 cells, values right-aligned, buttons with their label centred and cut to fit, in the colour of buttons under the mouse and in that of selectable things elsewhere, attributes cleared after them. A setting is toggled by an odd number of presses on its button and shown as it is then.", "quantifier": "every screen, position, key, value and label, every mouse position, every pair of colours, every sequence of events", "why_tests_cant": "off-by-one differences between drawn and clickable cells show up only when every cell is compared for every size and label", "anchors": ["x/platform/hud.go:calcKVBox", "x/platform/hud.go:detailHeader", "x/platform/hud.go:detailRow", "x/platform/hud.go:drawButton", "x/platform/hud.go:drawToggleRow"]}
{"id": "C98", "title": "HUD focus and file names: what is typed creates one file, for the control chosen", "statement": "Ctrl-K shows and hides the HUD and is not passed on; hidden, it leaves screen and input to the program. A control has the focus from an odd number of presses on it until a press outside, Enter, Escape or creation. With the focus, Enter creates the file with the text as edited, or the default name if it is empty, and a second press on the empty text creates the default; nothing else creates a file, no frame creates two, and what is typed goes to the control that was chosen. A press on a profile's sign starts the profile if it is idle and stops it if it is active; presses on the buttons of the timing rows pause or resume the program and start or stop a recording, once for an odd number of presses, and are not passed on.", "quantifier": "every sequence of frames with any input events, every set of profilers, every text", "why_tests_cant": "input of a frame can contain presses on several controls, edits and submissions in any order, and controls appear and disappear between frames", "anchors": ["x/platform/hud.go:Update", "x/platform/hud.go:underActivation", "x/platform/hud.go:underFileEdit", "x/platform/hud.go:drawFileEditRow", "x/platform/hud.go:nextID"]}
{"id": "C99", "title": "The HUD's profile list adds exactly the profile pressed", "statement": "Opened, the list shows the profiles not added yet, one per row, the one under the mouse in the colour of buttons. Pressing a row adds the profile shown there, once; any press of the first button closes the list; presses on it are taken. It never crashes the program.", "quantifier": "every set of profiles (programs register their own, with any name), every screen, position and sequence of presses", "why_tests_cant": "profile names come from the packages a program imports, and the row pressed is computed from the cursor after drawing them", "anchors": ["x/platform/hud.go:drawPProfSelector"]}
{"id": "C100", "title": "Drawing gives the same output whatever writer it is sent to", "statement": "WriteGrid, WriteBitmap, Screen.Update and Cursor.ApplyTo produce the same output for any io.Writer: an anansi.Buffer gets it appended, any other writer gets it in a single Write, and a VirtualCursor, VirtualScreen or ScreenDiffer ends up as if that output had been written to it. The byte count and error are those of the writer, and the state returned is the state of the screen afterwards.", "quantifier": "every screen, prior state, style, bitmap and writer, including writers that fail part way", "why_tests_cant": "each function takes one path per kind of writer, and the paths differ only in the state hidden in the writer, for screens whose neighbouring cells share attributes", "anchors": ["render.go:withAnsiCursorWriter", "render.go:withAnsiScreenWriter", "render.go:WriteGrid", "render.go:WriteBitmap", "state.go:Screen.Update", "state.go:Cursor.ApplyTo", "screen.go:VirtualScreen.WriteSGR", "cursor.go:VirtualCursor.WriteSGR"]}
{"id": "C101", "title": "What the builtin terminal descriptions say", "statement": "terminfo.GetBuiltin gives a TERM the description whose family name (Eterm, linux, rxvt, screen, xterm, cygwin, st) first occurs in it, and ErrUnsupported when none does; every description is found by its own name, and FuncMap/KeyMap hold each string under its name. Written to a terminal, ShowCursor, HideCursor, Bold, Underline, Reverse, SGR0 and ClearScreen of every description do what they are named for, and what EnterCA/EnterKeypad/EnterMouse turn on, ExitCA/ExitKeypad/ExitMouse turn off. Written to an anansi virtual screen they do the same. Keys typed in any order and decoded by ansi/platform Events can be told apart, each as one escape event, and TotalCursorMovement counts the cursor keys.", "quantifier": "All TERM strings; all builtin descriptions; all screens with the cursor on them (any size, content and attributes) and all terminal states; all sequences of keys.", "why_tests_cant": "The strings are written to terminals in any state and keys come in any order; tests would check one string on one screen, and the ones that have no effect on a virtual screen look right on a blank one.", "anchors": ["terminfo/terminfo.go:169-216", "terminfo/builtin.go:10-26", "terminfo/builtin_eterm_terminfo.go:3-46", "terminfo/builtin_linux_terminfo.go:3-46", "terminfo/builtin_rxvt_256color_terminfo.go:3-46", "terminfo/builtin_rxvt_unicode_terminfo.go:3-46", "terminfo/builtin_screen_terminfo.go:3-46", "terminfo/builtin_xterm_terminfo.go:3-46"]}
{"id": "C102", "title": "The telemetry log is lines of JSON that say what was measured", "statement": "With a telemetry log file, every line of the file is a JSON object with a time, a name and data: resource usage deltas at most once a second, the sorted times between the frames of a window of frames, each window at most once and in order, and the output stalls since the last window. While writes succeed no line is ever torn or mixed with another.", "quantifier": "for all schedules of the platform and its workers, all frame times, stalls, switches of telemetry options and files", "why_tests_cant": "a test sees one schedule; the goroutine that logs shares slices with the platform's loop, and what it logs depends on how the two interleave", "anchors": ["x/platform/diag.go:205-231", "x/platform/diag.go:320-453", "output.go:32-53", "output.go:97-102"]}
{"id": "C103", "title": "The telemetry worker neither blocks nor panics the platform, and logs what it is notified of", "statement": "A platform that updates telemetry and notifies its workers once a frame, stopping at the first error, is never kept waiting by the telemetry worker for more than the write it is in, even when writes fail; no step panics; what is pending when it notifies is logged; stopping logs what is left and returns.", "quantifier": "for all schedules of the platform and the worker, all results of writes, all frame times and usage samples", "why_tests_cant": "deadlocks of a lock and two channels depend on interleavings and on writes failing twice in a row", "anchors": ["x/platform/diag.go:355-370", "x/platform/diag.go:372-442", "x/platform/bg.go:62-109", "x/platform/diag.go:205-231"]}
{"id": "C104", "title": "Ctrl-R makes a recording of what follows, or says that it cannot", "statement": "Starting a recording leaves a file with the state and screen size only, or no file and a logged message; while it lasts every frame of input read is appended, whole and in order, and nothing else; ending it loads the recorded state and frames, at the sizes the screen had. If it cannot be started everything is as before and the user is told.", "quantifier": "every encoded state in every chunking, every failure of creating, seeking, writing, closing, removing and opening, every sequence of reads and resizes", "why_tests_cant": "all failure points, all histories of toggles and all inputs", "anchors": ["x/platform/replay.go:setRecording", "x/platform/replay.go:loadReplay", "x/platform/replay.go:toggleRecRep", "x/platform/replay.go:recordSize", "x/platform/replay.go:readReplay", "input.go:recordFrame"]}
{"id": "C105", "title": "Reading a recorded state makes platform and client as they were", "statement": "After readState the platform's state and the client equal those that were written, whatever they were before, so that every replay of a recording starts alike; a failure changes nothing; the telemetry switches restored agree with what is collected.", "quantifier": "every state and client of number fields, before and after; every stream failing anywhere", "why_tests_cant": "all pairs of old and recorded states and all failure points", "anchors": ["x/platform/state.go:readState", "x/platform/state.go:writeState", "x/platform/diag.go:SetStallTracking"]}
{"id": "C106", "title": "cmd/interact runs only complete commands and shows what the present one gave", "statement": "Whatever is pressed and typed over any frames: every command run is the given one with all $variables replaced by non-empty values and backslash-dollar words unescaped; nothing runs while a variable lacks a value; what is shown is what the last run, with the present values, gave; a value is changed only by an edit of its word ended with Enter; a frame without presses changes nothing; each word can be pressed exactly where it is shown, and the output is shown below.", "quantifier": "every command line, every result of every run, every sequence of frames with any input, screen sizes and HUD on or off", "why_tests_cant": "all command lines and all sessions of presses, edits and resizes", "anchors": ["cmd/interact/main.go:setCmd", "cmd/interact/main.go:haveAllArgVals", "cmd/interact/main.go:runCmd", "cmd/interact/main.go:Update"]}
{"id": "C107", "title": "cmd/demo shows its picture, and clients are run until they end", "statement": "In every frame, whatever sizes the screen had before, cmd/demo shows its picture on the whole screen: at each cell the background of its column and row, and on every sixteenth row red and digits running on from the clock; it never panics. Ctrl-C ends it, else Ctrl-Z suspends it, and unless it ends every escape sequence received is logged in order and no other input is lost. The Run loop of cmd/demo and cmd/interact runs a fresh client again after a replay ends or nil, returns nil on end of input or interrupt, and any other error.", "quantifier": "every sequence of frames, times, screen sizes and input; every sequence of results of Platform.Run", "why_tests_cant": "all sessions of frames with all screen sizes and inputs", "anchors": ["cmd/demo/main.go:Update", "cmd/demo/main.go:Run", "cmd/interact/main.go:Run"]}
{"id": "C108", "title": "Input notification reaches the channel last asked for", "statement": "When input arrives, a signal is put into the channel last given to Input.Notify, if it has room, and into no channel given before; after Close, or Notify(nil), into none. An InputSignal that is entered, also again after being suspended, hears of input and of the signals it names. Notify makes the file asynchronous and Notify(nil) makes it synchronous again.", "quantifier": "every history of Notify, Close, Enter, Exit, receives and arriving input, any channels, any results of the system calls", "why_tests_cant": "all interleavings of arriving input with changes of channel", "anchors": ["input.go:Input.Notify", "input.go:Input.Close", "input.go:InputSignal.Enter"]}
{"id": "C109", "title": "A program run under RunWith gives the terminal back", "statement": "When Term.RunWith returns, however the program it ran ended and whatever it did (changing modes, reading, suspending itself, running others by RunWithout, nesting RunWith), the attributes of the output's terminal are those found, or those others set while the program was outside, the input file's flags are those found, and the modes set have been reset by the last bytes of the session's modes; and so it is found by whoever looks while the program is outside. Modes are never set while they are set.", "quantifier": "every program, every nesting of RunWith and RunWithout, every outcome of the program and of system calls", "why_tests_cant": "programs nest and fail in unboundedly many ways; needs the parts' guarantees composed by induction over programs", "anchors": ["term.go:Term.RunWith", "term.go:Term.RunWithout", "term.go:Term.initContext", "input.go:Input.Enter", "attr.go:Attr.Enter", "mode.go:Mode.Enter"]}
{"id": "C110", "title": "The profilers are controlled together without one getting in the way of another", "statement": "The HUD's control for all profilers starts every one of them when none is active, trying each whatever became of the others and reporting the first error; a profiler whose own calls succeed is active afterwards and its runtime profiler gathers into its file. When at least one is active it stops all: no runtime profiler runs afterwards even if stopping reports errors, and if it reports none no profiler is active. Start, samples and stop leave in each file exactly what was gathered. Whatever is done with the profilers, leaving the platform leaves none running. A profiler that failed to start should be tried again by the next press, and a name for which no file can be created should leave the running profiler alone.", "quantifier": "all configurations and options, all sequences of entering, leaving, pressing the controls, naming files, adding profiles and sampling, all failures of the calls made", "why_tests_cant": "The failures of file and profiler calls and the orders in which users press controls are unbounded; a test covers a few sequences with none or one failure.", "anchors": ["x/platform/hud.go:168-177", "x/platform/hud.go:715-731", "x/platform/hud.go:733-776", "x/platform/config.go:196-403"]}
{"id": "C111", "title": "A platform program leaves the user's screen as it was", "statement": "When a program run by a platform ends, by returning, failing or panicking, the terminal shows its normal screen again with the contents, cursor position and rendition it had before the program started (or was given by others while the program was suspended); the cursor is shown, mouse reporting is off and all other terminal modes are as before. What frames write never touches the normal screen or the modes, even if a flush fails in the middle of a control sequence.", "quantifier": "all programs nesting RunWith and RunWithout, all screens drawn, all sizes, all failures of writes during frames and of the other contexts' calls, terminals with and without background colour erase and however they treat NUL", "why_tests_cant": "The text written depends on everything drawn and on where output was cut; that none of it switches screens or modes on a terminal is a statement about all byte sequences the library can produce and needs a model of the terminal's parser.", "anchors": ["x/platform/platform.go:35-126", "x/platform/platform.go:175-232", "term.go:131-180", "mode.go:18-60", "screen.go:196-240"]}
{"id": "C112", "title": "SGRReset and SoftReset reset what they are said to", "statement": "Writing ansi.SGRReset to a terminal resets the graphic rendition (foreground, background, text and other attributes) to the default and changes nothing else; writing it to a VirtualScreen of the library resets the attributes of its cursor. Writing ansi.SoftReset resets the rendition and shows the cursor.", "quantifier": "all states of the terminal, also within an unfinished control sequence, all kinds of terminals, all screens", "why_tests_cant": "A test can compare the bytes with those expected, but whether they reset is a question about terminals in all states, which a unit test does not have.", "anchors": ["ansi/sgr.go:48-50", "ansi/sgr.go:11", "ansi/funcs.go:405-413", "x/platform/platform.go:62"]}
{"id": "C113", "title": "Running a platform gives the files back", "statement": "When platform.Run returns, whether New failed, the program returned, failed or panicked, the settings of the terminal, its modes and the flags of the input file are as they were before Run was called, and no channel made by the platform is notified of input any more. New asks for raw mode, adds the platform's modes and has a channel notified of input.", "quantifier": "all input files and flags, all programs nesting RunWith and RunWithout, reading and changing the settings, all errors of the configuration and options", "why_tests_cant": "The flags belong to an open file shared with other processes, which tests without a terminal do not observe; and what is given back depends on every way a program can end.", "anchors": ["x/platform/platform.go:21-29", "x/platform/platform.go:35-95", "x/platform/platform.go:165-171", "input.go:90-104", "input.go:276-304"]}
{"id": "C114", "title": "What is printed of recorded input describes it", "statement": "InputFrame.String shows the frame's time, error, message and input, so that frames that differ print differently, and it prints nothing that a terminal would act on. InputReplay.Duration is the time from the first recorded input to the last. What holds: messages can be told apart, and whether there was input; a frame without error is safe to show; Duration is the sum of the gaps if the first and last frame have a time. What does not: the input is not printed (the message is, a second time), errors are printed raw, and Duration of a recording made by the platform, which starts with a size message without a time, is the longest duration there is.", "quantifier": "all frames, time formats and printability oracles; all lists of frames", "why_tests_cant": "Unit tests do not print frames; that a frame's text determines its fields is a statement about all pairs of frames, and the duration of all recordings.", "anchors": ["input.go:421-453", "x/platform/replay.go:155-199"]}
{"id": "C115", "title": "Lolwut draws squares, from order to disorder", "statement": "Whatever random numbers come, lolwut's drawing ends without a panic and sets the pixels of one square for each column and row, as far as they are on the canvas, and no others. Each figure drawn is a closed square, its corners within a pixel of those of a square of the configured side turned by its angle. The squares of the top row are in place; those of row y of n are moved by at most y/n of a third of a side in each direction and turned by at most y/n radian. The top row lies on the canvas; the other rows need not, with the defaults already (refuted).", "quantifier": "all canvas sizes, numbers of squares, sides, angles and sequences of random numbers; float64 taken as exact reals", "why_tests_cant": "The picture depends on random numbers and real angles; a test draws one picture.", "anchors": ["cmd/lolwut/main.go:90-182", "cmd/lolwut/interact.go:75-83"]}
{"id": "C116", "title": "What is printed of mouse states, events, cursors and screens describes them", "statement": "The String methods never panic, and values that differ print differently: points, rectangles, mouse states and mouse events, cursors (place, attribute, visibility), screens (cursor and bounds), decoded escape events, and the errors of mouse sequences. A mouse state prints the modifiers held, then the button and whether it is pressed, dragged or released. What is printed is safe to show on a terminal. What does not hold: mouse states of the wheel without a button print like the right button, and arguments of escape events are printed raw, so that control bytes inside a CSI sequence or string reach the output.", "quantifier": "all points, rectangles, the 256 mouse states, all proper attributes, all inputs to DecodeEscape and DecodeXtermExtendedMouse, all printability oracles", "why_tests_cant": "That a text determines what it describes, and holds no control byte, is a statement about all values and all inputs that decode.", "anchors": ["ansi/geom.go:142-144", "ansi/mouse.go:64-136", "ansi/mouse.go:147-151", "x/platform/event.go:167-168", "state.go:67-73"]}
{"id": "C117", "title": "Points and rectangles are built and computed with as documented", "statement": "Rect and Pt panic exactly for coordinates below one; Rect orders its corners and holds the points between them; Valid holds exactly of points that PtFromImage gives. Add and Sub undo each other, Diff is what Add needs, Mul is repeated addition, Div undoes Mul and otherwise rounds towards the origin, and panics by zero. Size counts the points inside and leads from one corner to the other, and moving a rectangle keeps it. Inset by too much leaves an empty rectangle about the centre; by a negative number it grows to the points near the rectangle.", "quantifier": "all points, rectangles and factors over the integers", "why_tests_cant": "unbounded integer coordinates, with rounding and negative values", "anchors": ["ansi/geom.go:26-39", "ansi/geom.go:53-75", "ansi/geom.go:97-139", "ansi/geom.go:147-201"]}
{"id": "C118", "title": "decode's sessions set the terminal as its flags ask, and give it back", "statement": "cmd/decode filters standard input unless input and output are both terminals, in which case it never fails before its session starts. In the session, whatever it reads and writes, however often it suspends itself and however it ends, the settings are raw without echo (with -raw) or as found with echo on (without), while the process is in control; they are as found while suspended and at the end. Each time it takes control exactly the modes asked for by -mouse and -alt are set, each time it leaves they are reset in reverse order, and in the end settings, modes and the input's flags are given back. Setting up changes nothing before.", "quantifier": "all flags, all settings found, all programs of reads, writes, suspensions, failures and panics", "why_tests_cant": "A test sees one ending of one session on one terminal; the claim is about every order of suspensions and every way to end.", "anchors": ["cmd/decode/main.go:31-58", "attr.go:27-36", "attr.go:55-89", "mode.go:38-50", "term.go:61-67", "term.go:91-167"]}
{"id": "C119", "title": "Size is the output terminal's, inside a session only", "statement": "Within a session Term.Size gives columns and rows of the output's terminal as the system tells them, whatever SetRaw and SetEcho did and even if applying the settings failed on entering. Before a session and after it Size fails without asking the system. An error comes with the zero size.", "quantifier": "all terminals, sizes, and sequences of SetRaw and SetEcho, failing or not", "why_tests_cant": "needs every state an Attr can get into, including after failures of system calls", "anchors": ["attr.go:46-48", "attr.go:115-150", "attr_linux.go:11-24", "attr.go:152-160"]}
{"id": "C120", "title": "A platform is built as its options and flags say", "statement": "platform.New panics exactly if a FrameRate option is not positive, and otherwise returns. A platform it returns runs at the last frame rate given (60 without one), with windows of estimates to match; each log, profile and telemetry file is the one named first by the flags, if they are parsed, and then by the options in order; timing is logged if any asks for it. Flags are parsed only if they were not yet and no option is a Config. If no system call fails New succeeds, leaves the named files empty and touches no others; without named files it cannot fail. What does not hold: a Config given by pointer does not keep flags from being parsed and from overriding it, and when New fails the files created before stay emptied.", "quantifier": "all lists of options, flags, and failures of system calls", "why_tests_cant": "any number of options in any order, together with any subset of flags and any failing call", "anchors": ["x/platform/platform.go:35-98", "x/platform/options.go:8-35", "x/platform/config.go:58-133"]}
{"id": "C121", "title": "The lolwut command prints its picture", "statement": "With arguments that are decimal numbers fitting an int (at least 1 is taken; left out they are 60, 8 and 12), the lolwut command ends with status 0 having printed lines of as many braille characters as columns asked for, separated by CR LF and ended by a newline, whose dots are exactly the pixels of the squares. An argument that is no number ends it with nothing printed, also with -i; with -i and good arguments the platform is run and nothing drawn. If a write fails the command fails, having printed a part of what it prints otherwise. From three columns on there is at least one line; with fewer there may be none (refuted in general).", "quantifier": "all arguments, random numbers, and failures of writes", "why_tests_cant": "any arguments and any random numbers; the picture has to be exact for all of them", "anchors": ["cmd/lolwut/main.go:47-72", "cmd/lolwut/main.go:92-138", "cmd/lolwut/main.go:219-231", "render.go:120-157"]}
{"id": "C122", "title": "The interactive lolwut shows its squares", "statement": "Run on screens of any sizes, with any input and any random numbers, no frame of the interactive lolwut panics. Each shows on the screen, in braille, exactly the pixels of the squares on its canvas, which is as wide as the screen; the wheel over the screen changes the side of the squares by a pixel a notch, never below one; each frame turns them by 1/100 radian modulo half a turn; after a change of width or of the side there are just as many squares as cover the screen inside the margin; Ctrl-C ends the program, Ctrl-Z suspends it, and other input is left alone. What does not hold: the picture filling the screen, since rows added to the screen without a change of its width stay empty.", "quantifier": "all sequences of frames: screen sizes, events, random numbers", "why_tests_cant": "the state kept depends on all frames before; any sizes and inputs", "anchors": ["cmd/lolwut/interact.go:26-86", "cmd/lolwut/main.go:92-217"]}
{"id": "C123", "title": "to24bit does not lose output silently", "statement": "However the writes to its standard output come out, to24bit neither panics nor goes on after a failure: what it has written is the beginning of what it was to write, it exits with status 0 only if its input ended and all of the output was taken, and with status 1 once a write failed, making no further write. While no write fails its status is unaffected, nothing is held back once it ends, and at most 4096 bytes before.", "quantifier": "all inputs in all pieces, all sequences of outcomes of writes, including short ones", "why_tests_cant": "a failure may hit any write at any byte, also the last flush, and after any input", "anchors": ["cmd/to24bit/main.go:17-66", "cmd/to24bit/main.go:68-111"]}
{"id": "C124", "title": "decode does not lose output silently", "statement": "However the writes to its standard output come out, decode run as a filter does not panic; what it has written is the beginning of the text and notes it was to write, once a write failed it ends and makes no further write, and it tells that the output failed. While no write fails it answers what the read that ended its input did, nothing is held back once it ends, and at most 4096 bytes before.", "quantifier": "all inputs in all pieces, both modes, all sequences of outcomes of writes, including short ones", "why_tests_cant": "a failure may hit any write at any byte, also the last flush, and after any input", "anchors": ["cmd/decode/main.go:60-81", "cmd/decode/main.go:83-128"]}
{"id": "C125", "title": "The interactive decode shows what is read whatever its goroutine does when", "statement": "However reading, decoding, signals and the select of the interactive decode come to follow each other, it shows the events of what was read in order and each once, none twice and none left out; it acts on what it received as one that got it from a list would; when reading fails everything read before has been shown, at the end of the file with nothing held back; it never waits forever while there is something to show, never panics, always takes a stopping signal, and never receives from the closed channel. When it returns its goroutine ends and takes no more input.", "quantifier": "every interleaving of goroutine and loop, every division of the input, every moment for signals and failures", "why_tests_cant": "the scheduler chooses among unboundedly many orders, and select picks at random", "anchors": ["cmd/decode/main.go:139-205", "input.go:130-222"]}
{"id": "C126", "title": "A Cursor that processes what is sent to a terminal follows it", "statement": "If a Cursor is right about a terminal (position, rendition and visibility, as far as it claims to know them), then it is right again after the terminal was sent any printable characters, line feeds, carriage returns, cursor motions, positions, renditions and visibility modes and ProcessANSI was called with each. An absolute position makes the position known; ProcessANSI never comes to claim a rendition or visibility it does not know.", "quantifier": "every tracked state and terminal, every session of any length, every parameter", "why_tests_cant": "whether two state machines stay in step is a statement about all sessions; tests fix one", "anchors": ["state.go:12-17", "state.go:261-273", "state.go:279-346"]}
{"id": "C127", "title": "A Screen given what is sent to a terminal has what the terminal shows", "statement": "If a Screen and a terminal of the same size have the same characters, renditions and cursor, they have so again after the same bytes were sent to the terminal and written to the VirtualScreen: printable characters, line feeds, carriage returns, cursor motions (which stop at the edges), positions, renditions, visibility, and erasing of lines and of the screen. A cleared Screen has what a blank terminal shows.", "quantifier": "every screen size, contents and cursor, every session of any length, every parameter", "why_tests_cant": "agreement of two screens after every session of output is a statement about unboundedly many states; tests fix one session and size", "anchors": ["state.go:76-79", "state.go:186-199", "state.go:362-384", "state.go:386-448", "state.go:450-476", "screen.go:129-157", "screen.go:190-193"]}
{"id": "C128", "title": "What the palette listing shows", "statement": "cmd/palette prints a first line naming the model, then each palette under its heading, with empty lines between them and one line per colour. On a terminal with room, whatever rendition was set, a line shows the number in the default rendition, '[ fg ]' in the colour, '[ bg ]' upon the colour, and two string literals in the default rendition, which is left set; the bytes the literals stand for set that foreground and that background and change nothing else. The rows of a listing line up.", "quantifier": "every colour model by name, with and without themes, every colour of 8 or 24 bits, every number, every terminal state and size with room", "why_tests_cant": "the rows depend on 2^24 colours and on the state the terminal was left in; tests compare a few rows as bytes and do not say what is seen", "anchors": ["cmd/palette/main.go:19-25", "cmd/palette/main.go:47-114", "ansi/sgr.go:624-629"]}
