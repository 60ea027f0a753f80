# Formal model of superwhiskers/crunch: design

## 1. What is modelled

| Go source | Rocq file | remarks |
|---|---|---|
| Go integers, slices, `append`, `copy`, `make`, `panic`, `defer`, `sync.Mutex`, `goto` and `for` loops | `GoSem.v` | memory is a list of backing arrays; a slice is (array, start, len, cap), so aliasing is real |
| `encoding/binary` (the part v1 calls) | `GoBinary.v` | library code, not in /repo; see section 5 |
| `v?/errors.go` | `Errors.v` | the struct values and the `Error` method |
| `v3/buffer.generated.go` | `V3Buffer.v`, `V3BufferTyped.v` | every function |
| `v3/minibuf.generated.go` | `V3Mini.v`, `V3MiniTyped.v` | every function |
| `v2/buffer.go`, `v2/minibuf.go`, `v2/utils.go` | `V2Buffer.v`, `V2BufferTyped.v`, `V2Mini.v`, `V2MiniTyped.v` | every function, with the mutex |
| `v1/buffer.go`, `v1/minibuf.go`, `v1/utils.go`, `v1/crunch.go` | `V1Buffer.v`, `V1Mini.v` | every function, with the mutex; `interface{}` data is a tagged union |
| `generation/complex.go`, `generation/main.go`, `v3/_buffer.go`, `v3/_minibuf.go` | `Gen.v` | the search for magic comments, argument checks, emitted code, file writing |
| the text of `generation/*.go` | `SrcGen.v`, `ToolParse.v`, `ToolRegex.v`, `ToolEval.v`, `ToolText.v` | the bytes of the files, a parser and an interpreter for the Go they are written in, with the libraries they call |
| `examples/*` | `SrcEx.v`, `GoMain.v`, `Examples.v` | the text of the three programs, its meaning, and models of them |
| the text of the Go files of v1, v2, v3 | `SrcV1.v`, `SrcV2.v`, `SrcV3.v` | the bytes of the files, embedded by `tools/embed.py` |

A method is a term of type `prog A`: a tree whose nodes are single accesses to a
struct field, a byte of memory, or the mutex.  `run` executes a tree
sequentially; `Conc.v` interleaves the very same trees.  Panics are values and
carry the state found by `recover()`.

There are two independent routes from the Go text to a `prog` tree.

* By hand: the files `V?Buffer.v`, `V?Mini.v` (the `*Typed.v` files are
  transcribed by `tools/gen_typed*.py`).
* By machine: `GoLex.v` and `GoParse.v` read the embedded text, and the
  interpreter `GoEval.v` gives a call of a function its tree.

C64 proves that both routes give the same tree, for all functions of the six
files.  So the hand-written models are not trusted: the interpreter is.

### Files

1. `GoSem`, `Errors`, `Spec` (specification vocabulary: bits, encodings, splices; no reference to the code).
2. The models listed above; `Typed.v` indexes the typed methods by format.
3. `Calls.v`, `OldCalls.v`, `V1Calls.v`: the API as data (a call is a method with arguments). `Abs.v`, `Abs2.v`, `MiniAbs.v`, `MiniAbs2.v`, `ConcSpec.v`, `ConcSpec1.v`, `RaceSpec.v`, `RaceSpec3.v`: the abstract machines, small and free of the models.
4. `*Lemmas.v`, `Frame.v`, `Sim.v`, `Sim2.v`, `History.v`, `Hist2.v`, `NewBuf.v`, `MiniSim.v`, `MiniHistory.v`, `MiniSim2.v`, `MiniHist2.v`, `V2Agree.v`, `V2Safe.v`, `TypedCanon.v`, `LockLemmas.v`, `Conc*.v`, `Race*.v`, `GenSpec.v`, `GenLemmas.v`: proofs.
5. `Conv.v`, `Front.v`, `Front*.v`, `Tables.v`, `TableProofs.v`: models against text (C64).
6. `Props_*.v`: the property theorems, each with `Print Assumptions` and a concrete `Example` that meets its hypotheses.

State invariant `WF`: the slice lies in memory, memory holds bytes, `cap` and
`bcap` agree with the slice, offsets are int64.  Every constructor establishes it
and every call keeps it, panicking calls included (C26, C34, C60, C68).

## 2. Simplifications

* `int` is 64 bits (amd64, arm64). The largest allocation is 2^48 bytes; running out of memory below that is not modelled.
* A nil slice is a slice of capacity 0. crunch never tests for nil.
* Slices of integers or floats passed to or returned by the typed methods are lists of numbers: no byte slice can alias them without `unsafe` in the caller.
* A float is its bit pattern (`unsafe.Pointer` casts keep bits). `Props_Float.v` relates the patterns to IEEE-754 values with Flocq.
* `append`'s choice of a new capacity is an arbitrary function `pol`; theorems quantify over it.
* `out` pointers of MiniBuffer methods: the result is returned and then stored by the caller. The code stores a `byte` result as its last access to the buffer, so an `out` inside the buffer is the same as a store by the caller right after the call, which histories allow. For v1 `MiniBuffer.ReadComplex`, what a panicking call has already stored in `*out` is not kept. For `*uint64` and slices of numbers the variable is part of the state (`outs`), so partial results are kept.
* A state of GoSem.v has one receiver. A program with several buffers is a world of several receivers over one memory (Many.v, C80); C33 and C36 speak about disjointness for one receiver.
* Model loops have a bound of their own (`goto_loop`, `for_loop` fuel computed from the arguments). C21, C36 and C60 show that it is never reached.
* The interleaving semantics is sequentially consistent, one field or byte access per step. Go promises less for racy programs. Negative results are therefore already races in the strongest model. C72 proves which programs are free of races, and to those Go promises sequential consistency. The class of C45 (not that of C44) also allows racy programs, such as Offset beside Seek; for these C45 is about sequentially consistent executions only. C89 does without sequential consistency: it covers every order in which writes become visible, for goroutines that keep to different parts of an unlocked buffer.
* Generator: the text of emitted functions is compared token by token with the committed one (the layout by jennifer/gofmt is not). Messages, file permissions and memory use of the generator are not modelled. Further simplifications are in the header of `ToolEval.v`.

## 3. Not modelled

Test files, benchmarks, the standard library `bytes.Buffer` copies used in
tests, `go.mod` files, running time, garbage collection, data-race undefinedness.
Validate.v runs the unit tests with the interpreter, as a check of the model, not
as a proof.  Of performance only the number of accesses to memory is modelled (C85).

## 4. Properties and how they are proved

| id | model and proof |
|---|---|
| C01-C03 | equation of the bit methods on a WF state in terms of `bit_at`; laws by extensionality on bits |
| C04-C08 | induction on the loop count; value by Horner; overrun by splitting the loop at the first failing bit; zero count: refutation and universal statement |
| C09 | induction over the loop |
| C10 C11 | `memmove` semantics of `Move`; aliasing source allowed |
| C12-C15 | format table `numty`; one generic proof for canonical store/load lists, instantiated to the 16 formats |
| C16 | bit patterns and Flocq `binary32`/`binary64` |
| C17-C20 | case analysis on the checks with `wrap64`; overflow cases shown to reach a Go panic before any store |
| C21 C26 C33 C34 | abstract machine of `Abs.v`; one simulation lemma per method; induction on histories; `Stuck` unreachable |
| C22 | per-operation equation between `XNext` and `X` |
| C23 C24 | induction on the record list |
| C25 C27-C32 | direct equations |
| C35-C40 C57 | MiniBuffer equations on all arguments, abstract machine of `MiniAbs.v`, comparison with Buffer |
| C41-C43 C50 C58 C59 | v2 equations; forward copy loop; lock left held: later locking calls give `Deadlock` |
| C44 C45 C62 | interleaving semantics; invariant: the lock holder's remaining program runs to the atomic result; measure for termination |
| C46 C47 | schedules constructed for every state of the stated kind |
| C48 C49 C61 | v1 complex functions; comparison of v1 with v2 call by call |
| C51 C52 C63 | generator model; its output compared with the committed text; what the emitted code does, by running it as text; file-write model |
| C53 | `raises` predicate over trees, all states; decidable facts about the constants |
| C54 C55 | corollaries of the above |
| C56 | the text of the programs run by `GoMain.v`, whose calls are those of the v3 text; corollary of C65's lemmas and of the models in `Examples.v`. `C56_the_floats` ties the constants to Flocq's `binary64` |
| C60 | invariant over histories with recovered panics and caller actions |
| C64 | `conv`: for all large fuel the interpreter's tree equals the model's tree; loop lemmas with invariants; trees at two bounds are equal except where the smaller one is cut (`below`, Bound.v), so no outcome depends on the bound (Props_Bound.v) |
| C65 C66 | C64 composed with the simulations, so that the statement mentions only text, memory and abstract machine |
| C67 | the text and the models are bisimilar under every schedule (FrontConc.v): access trees are equal above a bound, schedules are finite and finitely many, so one bound serves all; C44-C47 and C62 carry over; an execution at any bound is one of the models in which some calls do not go on, which gives the _any_bound theorems for C67, C73-C76, C82, C84, C86 and C87 (TextConc.v, Props_Bound.v, IsolateBound.v, Props_IsolateBound.v) |
| C68 | a machine for v1 and v2 (Abs2.v: byte string, spare bytes, offsets, dead or not), a simulation for every call on live and dead buffers (Sim2.v), histories by induction (Hist2.v) |
| C69 | C68 with C64: the interpreter ends every call as the model does, so the histories of the text are those of the model |
| C70 | the abstract MiniBuffer of v1 and v2 (MiniAbs2.v), a simulation for every call (MiniSim2.v; most calls are those of v3, proved equal), histories by induction (MiniHist2.v) |
| C71 | C70 with C64, as in C69 |
| C72 | happens-before of the Go memory model over the access traces of the goroutine model (Race.v); each location has a mode (never written, written by one goroutine, written under the mutex), each call keeps its modes at every access (RaceLemmas.v, RaceOld.v), so an invariant orders every two conflicting accesses; converse by a witness schedule for every pair of methods |
| C73 | C72 with the bisimulation of C67, which also keeps the next access of every goroutine; extended to v1 |
| C74 | each call keeps to the pieces of the buffer in the table of RaceSpec3.v; a piece that one goroutine writes belongs to it; the invariant of C72 |
| C75 | beside the shared run, one run of each goroutine alone; an invariant says they agree on all that the goroutine may read (Alone.v); arrays that a call allocates are matched by number with padding |
| C76 | as C44-C46 and C62 for v1: the invariant of ConcInv.v lets a call fill arrays of its own before it takes the lock, which is how WriteComplex works; most other methods are v2's; then the text as in C67 |
| C77 | sizes of the arrays of the heap before and after each event: calls that neither allocate nor set the slice, by recursion over their programs (AllocLemmas.v), the rest by their equations; the total by a potential function (what is saved up for the next array) and induction over the history; the text by C65 and C66 |
| C78 | `generation/complex.go` as text: an interpreter in continuation-passing style, so that what depends on the printer or the world branches there and nowhere else; the 72 valid argument lists by running the text on each with the printer, the state and the continuation left abstract; regular expression, argument checks and loop over the map by lemmas and induction |
| C79 | `generation/main.go` as text: one equation per statement, induction over the directory and over the map, composed with C78; each system call may fail |
| C80 | one memory and a list of objects, each call run by the text of its type; frame and region clauses of the simulations of C65, C66, C69 and C71 keep the regions of the objects disjoint, so the list refines the product of the abstract machines; projection of the product by induction |
| C81 | one request per type and deed (Wire.v); each of the four abstract machines satisfies the same equation for it, in terms of the encoding of Spec.v; then any write composes with any read through the worlds of C80 |
| C82 | RaceMiniSpec.v: which of slice header, offset fields and bytes each MiniBuffer call reads and writes; `own_out` gives a goroutine its result variable; a discipline on programs (as for C74) is shown for every call, then race freedom of all traces; conflicts by a computed trace per pair of kinds |
| C83 | the list of accesses of a call that runs alone (RaceLog.v); a call that returns has accessed every byte of its footprint, by the shape of its loops (RaceExact.v); it returns again in every state with a buffer of the same size, by the simulations of C33 and C66; so two goroutines that take turns reach both calls and race; the other direction is C74 and C82 |
| C84 | goroutines with a buffer each over one memory (IsolateSpec.v); a relation between a method that runs alone and the same method in company, whose arrays are elsewhere, that lets it read only what it may see and write only what it owns, proved for every method of every version (IsolateRel.v); it is kept by every step of anybody, so the answers, the end, the waiting and the number of steps are those of the run alone (Isolate.v); the parsed text and the model take the same steps (IsolateText.v), so the same holds of the text (Props_IsolateText.v) |
| C85 | accesses are counted along the run of a method (WorkSpec.v); a cost logic for programs bounds them for all results of reads, loops by their counts (Work.v, WorkV3.v, WorkOld.v); growth is paid for by the potential of C77; the text takes the same accesses; the constructors append slice by slice, and the same potential pays for their copies (NewWork.v) |
| C86 | as C82, for the calls of v1 and v2 on a MiniBuffer: RaceMiniSpec2.v is the table, the discipline of C82 is shown for every call of both versions (RaceMini2.v), `append` included; conflicts by a computed trace per pair of methods; the text by lock-step matching as in C75 |
| C87 | as C75, with the invariant made generic in the calls (AloneGen.v: what a call reads and writes, and that it ends as the abstract buffer says, are its hypotheses), then met by every call of the three MiniBuffers (AloneMini.v), v1's WriteComplex with its temporary arrays included |
| C88 | as C83, for the loops of v1 and v2 and v1's integers by way of binary.ByteOrder (RaceExact3.v); the calls return again by the simulation of C70; the other direction is C86 |
| C89 | goroutines with views of their own (WeakSpec.v), changed at will where others may write; the invariant of C87 is per goroutine and looks only at places no other goroutine may write, so news keep it (AloneGen.v); the memory after waiting is built from the views; v3 Buffer instance in Weak.v; for the parsed text by simulation: raising the bound of the interpreter only extends what was cut short, by induction on statements and expressions (Bound.v), so the text at any bound is the model cut short (TextWeak.v, Props_WeakText.v) |

Every property is expressible; none is skipped.

False readings are refuted by a theorem named `..._refuted` with a witness, next
to a theorem that says what holds instead (C07, C08, C19, C28, C42, C45-C48,
C51, C52, C63, C79, C80).

## 5. Trusted base

1. Coq 8.16.1's kernel (all files are also re-checked by `coqchk`).
2. Axioms. `Print Assumptions` under each property theorem prints "Closed under the global context" for all of them except those of `Props_Float.v` (C16 and `C56_the_floats`), which use Flocq and hence the standard library's reals: `ClassicalDedekindReals.sig_not_dec`, `ClassicalDedekindReals.sig_forall_dec`, `FunctionalExtensionality.functional_extensionality_dep`, `Classical_Prop.classic`. `coqchk` lists in addition the opaque constants of `Coq.Reals.Rdefinitions` and of `Coq.ssr.ssrunder` because the libraries that declare them are loaded. No axiom is declared here.
3. `GoSem.v`: the meaning of the accesses (`run`, `Conc.v`), of integer operations and of slices.
4. `GoLex.v`, `GoParse.v`, `GoEval.v`: the meaning of Go text. A construct outside the supported subset has no behaviour (`OutOfFuel`), and no theorem accepts it as one, so a gap in the interpreter makes C64 unprovable rather than vacuous. The conventions (order of evaluation, `out` parameters, `defer`) are in the header of `GoEval.v`.
5. That `SrcV?.v`, `SrcEx.v`, `SrcGen.v` and `SrcTest.v` are the bytes of /repo: `tools/embed.py` writes them and can be re-run.
6. `GoBinary.v`: `PutUintN`/`UintN` of the standard library. The early bounds check `_ = b[k]` of that code is modelled by the failing access itself; callers in v1 always pass slices that are long enough or fail in slicing before.
7. For C51, C52, C63, C78, C79: `ToolParse.v`, `ToolRegex.v` and `ToolEval.v`, the meaning of the Go in `generation/*.go` and of the library functions it calls (regexp, strings, strconv, bytes, flag, filepath, os, ioutil and the builders of jennifer, whose tokens are those in `Gen.v`). Outside the subset there is no result, and C78 and C79 say that there is one. The rest of `Gen.v`, written by hand, is not trusted: C78 and C79 prove that the text does the same.
8. For C56: `GoMain.v`, the meaning of a `main` that calls a package and prints (`fmt.Println` of strings, byte slices, integers, and of float64 by the shortest decimal; conversion of decimal constants to float64). `Examples.v` is not trusted: `C56_text_*` are about the text.

Items 3 to 6 are checked against the authors' expectations: `GoTest.v` reads the test
functions of `v?/buffer_test.go` and `v?/minibuf_test.go` (embedded in `SrcTest.v`) and runs
them on what the interpreter makes of the packages. `Validate.v` computes that all 363 pass,
with two growth policies of `append`, and that wrong tests fail. These are tests, no property rests on
them. `panicChecker` and the two comparers of structs are written by hand in `GoTest.v`.

The statements rest on: `Spec.v`, `Abs.v`, `MiniAbs.v`, `ConcSpec.v`, `ConcSpec1.v`, `GenSpec.v`, `ToolSpec.v`, `AllocSpec.v`, `Many.v` (up to `whistory`),
`Wire.v` (up to `bytes_seen`),
the observation functions (`content`, `visible`, ...) in `GoLemmas.v` and the call
types in `Calls.v`, `OldCalls.v`, `V1Calls.v`, `MiniAbs.v`.

## 6. Wrong programs

`tools/mutants.py` lists edits of the models and of the text that a realistic bug would make.
`tools/mutate.py DIR` applies each one to a scratch copy, rebuilds what depends on it and
records the first theorem that fails. The results are in `seeded/LOG.jsonl`, with the theorem
that was tightened where one was too weak.
