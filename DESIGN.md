# Formal model of planetscale/vtprotobuf in Rocq (Coq 8.16)

## What is modelled

vtprotobuf is a code generator: for every message type it prints Go methods
(`SizeVT`, `MarshalVT`, `UnmarshalVT`, `EqualVT`, `CloneVT`, pool methods).
The model is an *interpreter of the generated code*, parametric in the schema:
for each generator function `f(field)` of `/repo/features/*` there is a Coq
function that takes the field descriptor and computes what the statements
printed by the generator compute. All theorems quantify over every well-formed
schema, so they hold of the output of the generator for every `.proto` file in
scope. The runtime helpers (`protohelpers`) are modelled line by line, with Go
64-bit wrap-around made explicit where it matters.

* Integers are `Z`; `u64`, `s64`, `u32`, `s32` are the Go conversions.
  Bytes are `Z` in 0..255 (`is_byte`).
* Run-time panics (index out of range, negative slice bound, nil dereference)
  are the distinct outcome `Panic`; loop fuel exhaustion is the distinct outcome
  `NoFuel` and is proved unreachable.
* A Go message is a tree `val` (`VMsg slots unknown hidden`), one slot per struct
  member (all members of a oneof share the slot of the interface member).
  Nil pointers/slices/maps/interfaces are `VNil`; optional scalars `VPtr`.
  Maps are association lists with distinct keys; the list order *is* the
  iteration order of one `range` loop, and theorems quantify over all orders.
* Recursive generated methods are modelled by open recursion (each generated
  body is a non-recursive definition taking `rec`), tied by fuel bounded by the
  depth of the value (encode, size, equal, clone) or the input length (decode).
* Messages whose Go type has no vtproto helpers (`proto.Size`/`proto.Marshal`/
  `proto.Unmarshal`/`proto.Equal`/`proto.Clone` fall-backs) are oracles stored in
  the schema (`upstream`), with their contract stated as a hypothesis.

## Plan per property

| id | modelled | proof |
|----|----------|-------|
| C01 | `SizeOfVarint` with `bits.Len64` | arithmetic on log2 vs minimal n with x < 128^n |
| C02 | `EncodeVarint` loop on a byte buffer with index panics | loop invariant; frame |
| C03 | `decodeVarint` loop, per Go type | induction on varint bytes, bit arithmetic |
| C04 | zig-zag expressions with shifts/xor | bit arithmetic |
| C05-C07 | `Skip` with group depth counter | relation `rec_` for wire records; both directions by induction |
| C08-C11 | `SizeVT`, `MarshalVT`, `MarshalToVT`, `MarshalToSizedBufferVT` | backward-write simulation lemma `op (p++q++s) = p++enc++s`, induction on depth |
| C12 | same | output equals the independent spec encoder |
| C13 | `required` checks | same simulation, error branch |
| C14,C15 | strict variant | order lemma on spec encoder |
| C16 | map order as list order | permutation equivalence |
| C17 | nil cases | computation |
| C18 | `UnmarshalVT` of `MarshalVT` | record-by-record: concat lemma + per record decode lemma |
| C19 | `UnmarshalVT` on any bytes | index invariants, fuel bound |
| C20 | decoding of conforming record sequences | relational spec `decodes`, induction on derivation |
| C21 | concatenation | prefix-extension lemma of every reader |
| C22 | unknown fields | from C20/C12 |
| C23, C29 | length checks; malformed inputs | direct; refutations by witness |
| C24 | truncation | prefix lemma for accepted records |
| C25 | hasFields bit mask | bit-set invariant |
| C26 | oneof | instance of C20 |
| C27, C28, C47, C48 | group / extension / foreign / depth | refuted by witness on the faithful model (defects of the code) |
| C30 | floats as bit patterns | C18 with bit equality; refuted for negative zero |
| C31-C33 | `EqualVT` with pointer-equality oracle | induction on depth; equivalence with declarative content equality |
| C34 | `CloneVT` | induction on depth |
| C35 | heap model of `CloneVT` | heap-extension invariant: old heap is a prefix, all reachable addresses fresh |
| C36, C37 | `ResetVT`, pool, hidden capacity | cleanliness invariant over histories; simulation |
| C38, C39 | aliasing tags on strings/bytes | simulation between safe and unsafe decoding |
| C39, C53 | memory model of decoding and of pools (`HeapDec.v`) | an invariant of all memory accesses: only a closed set of objects is written (`HeapDecFacts.v`) |
| C54 | both models of decoding: on trees (`Unmarshal.v`) and on memory (`HeapDec.v`) | refinement (`HeapSim.v`, for any relation between the two trees that meets `rel_ok`; `HeapSimEq.v`: equality meets it): each step on memory keeps "the receiver holds this tree and shares nothing" (`HeapOwnSpec.v`) |
| C55 | programs as lists of operations (`HeapHist.v`), run on memory with pools (`HeapDec.v`, `Heap.v`) and on trees without | an invariant of the run (`HeapHistFacts.v`): the objects are coloured by the message, held or pooled, they belong to; each held message holds a tree related (`RunRel.v`) to the plain one, each pooled one a tree related to a new message. Decoding keeps it by the refinement of C54 for that relation (`HeapSimRun.v`, `HeapNil.v`), ResetVT and ReturnToVTPool by `HeapReset.v`, CloneVT by a simulation of its memory model (`HeapCloneSim.v`, `HeapCloneTree.v`); related trees have one encoding (`EncRel.v`) |
| C56 | a transcription of the shipped files of /repo/types/known (`KnownTypes.v`), the models of the generator's features for the descriptors of those messages | method by method, the two agree on every argument (`KnownFacts.v`; by induction on depth for Struct, Value, ListValue: `KnownStruct.v`); what C08-C19 say carries over to the shipped structs |
| C57 | goroutines as lists of messages and buffers over one memory with pools, events of a schedule (`HeapPar.v`) | the invariant of C55 does not depend on the order of messages and buffers, so an operation of one goroutine is one of the program that has all of them, with other numbers (`HeapParFacts.v`); what the step leaves alone is part of the lemma about the step |
| C58 | `UnmarshalVT`, `UnmarshalVTUnsafe` (`Unmarshal.v`, `Unsafe.v`); the shipped `Struct.UnmarshalVT` (`KnownTypes.v`); the cells of a value (`AmplifySpec.v`) | a potential: cells of the message plus a constant per byte still to be read never grows (`AmplifyFacts.v`); induction on the derivation for conforming input; for the refutation, a family of inputs and what they decode to, by induction (`AmplifyBomb.v`) |
| C59 | the code size.go prints, as syntax (`GoSyntax.v`, `GenSize.v`), and a semantics of that fragment of Go (`GoSem.v`) | induction on the depth of calls, one run of the printed statements per kind and label (`GenSizeFacts.v`); the text of the syntax is compared with every SizeVT method in /repo, by computation (`PropsText.v`) |
| C60 | the code marshalto.go prints, as syntax (`GoMarshal.v`, `GenMarshal.v`), run by a semantics with the buffer as state | a simulation, statement by statement: what runs after the variables declared so far and the index `i` is the step of `Marshal.v` (`GenMarshalFacts.v`); the text is compared with every marshalling method in /repo, by computation (`PropsPrint.v`) |
| C61 | the code unmarshal.go prints, as syntax (`GoUnmarshal.v`, `GenUnmarshal.v`), run by a semantics with the input, the receiver and its spare capacity as state | a simulation, statement by statement: the printed loops read the varints, lengths and elements the model reads, and the method called for a sub-message is the printed one (`GenUnmarshalFacts.v`, `GenUnmarshalRun.v`); an invariant says that the receiver has the shape Go's types give it; the text is compared with every UnmarshalVT and UnmarshalVTUnsafe in /repo, by computation (`PropsUnprint.v`) |
| C62 | the code equal.go prints, as syntax (`GoEqual.v`, `GenEqual.v`), run by a semantics in which pointers are named by their position in the operand and an oracle says which are shared | each printed comparison goes on if the model's comparison holds and returns false otherwise (`GenEqualFacts.v`), by induction on the depth of the operands; C32 then says what that means; the text is compared with every EqualVT and EqualMessageVT in /repo, by computation (`PropsEqPrint.v`) |
| C63 | the code clone.go prints, as syntax (`GoClone.v`, `GenClone.v`), run by a semantics that tells what was found in the original from what the calls allocated, and is stuck when a reference of the original would be stored in the clone | each printed copy leaves in the clone what the model's copy leaves (`GenCloneFacts.v`), by induction on the depth of the original; that the run is not stuck says that nothing is shared; C34 then says what the content is; the text is compared with every CloneVT and CloneMessageVT in /repo, by computation (`PropsClPrint.v`) |
| C64 | the code pool.go prints, as syntax (`GoPool.v`, `GenPool.v`), run by a semantics that follows the storage behind saved slices and the objects put into pools | the printed walk over the fields saves what the model saves, and the assignments after m.Reset() restore it (`GenPoolFacts.v`), by induction on the depth of the message; a history of printed calls is a history of the model, so C36, C37 and C49 apply; the text is compared with every pool, ResetVT, ReturnToVTPool and FromVTPool in /repo, by computation (`PropsPoPrint.v`) |
| C65 | the helper functions of protohelpers.go and KeySize, as statements (`GoFun.v` language and semantics with typed integers, wrap-around, untyped constants, scopes, break and switch; `HelperCode.v` the functions) | each loop by induction on the rounds against the function of `Helpers.v` (`HelperCodeFacts.v`), then C01, C02, C04-C07, C46; text compared with the files by computation |
| C66 | the code grpc.go prints, as syntax (`GoRpc.v`, `GenRpc.v`), run by a semantics whose surroundings (connection, stream, decoder, interceptor, implementation, pools) are arbitrary functions on a state; google.golang.org/grpc as a connection that finds the printed handler by path and carries bytes (`RpcNet.v`) | symbolic execution of each body for any surroundings; composition with C51 (the path finds the handler) and C18, C37 (what is sent arrives, new or recycled target); streams by an invariant over any sequence of operations of both sides; the text is compared with the services of /repo/testproto/grpc |
| C67 | the names of handlers and stream types (`GenRpc.v`, `Generator.v`) | injectivity within a service; false across services (witnesses) |
| C68 | Go's static rules for the printed fragment (`GoTypes.v`: types, declarations, uses, blocks, returns) applied to the code of `GenSize.v` and `GenMarshal.v` | one derived rule per statement (`GenTypes.v`), then a derivation per kind and label, with the types and dispatch of other messages as variables (`GenTypesFacts.v`, `GenTypesMarshal.v`) |
| C69 | the same, for all options | false (witnesses); marshal without size never compiles |
| C70 | the run of the plugin (`Driver.v`): files, messages inside messages, features, declarations | induction over nested messages; owner of each name for uniqueness |
| C71 | the names that the printed bodies refer to, with IsLocalMessage, WellKnownTypeMap, Alloc | each use traced to a declaration; witnesses for each condition |
| C72 | the types that wrap declares | the same; witness with a nested message |
| C73 | the same rules for the printed UnmarshalVT and UnmarshalVTUnsafe (`GoTypesUnmarshal.v`, applied to the code of `GenUnmarshal.v`) | one derived rule per statement (`GenTypesUnmarshal.v`), a derivation per kind, label, dispatch and option (`GenTypesUnPlain.v`, `GenTypesUnList.v`, `GenTypesUnMap.v`), induction over the fields, required numbers and ranges (`GenTypesUnBody.v`) |
| C74 | the same, for all schemas and options | false (witnesses) |
| C75 | `Marshal.v`, `Unmarshal.v`, `Equal.v` | the round trip (C18) and symmetry and transitivity of EqualVT (C31) |
| C76 | the same rules for the printed ResetVT and ReturnToVTPool (`GoTypesPool.v`, applied to the code of `GenPool.v`) | induction over the fields: the variables declared are those restored at the end |
| C77 | the same rules for the printed EqualVT and EqualMessageVT (`GoTypesEqual.v`, applied to the code of `GenEqual.v`) | a derivation per comparison, induction over the fields and the cases of oneofs (`GenTypesEqual.v`) |
| C78 | the same rules for the printed CloneVT and CloneMessageVT (`GoTypesClone.v`, applied to the code of `GenClone.v`) | a derivation per kind of field, induction over the fields and the cases of oneofs (`GenTypesClone.v`) |
| C79 | the same rules for the printed RPC stubs (`GoTypesRpc.v`, applied to the code of `GenRpc.v`), with the declarations around them | the printed text is the text of the declarations; a derivation per kind of method (`PropsCompileRpc.v`) |
| C40, C41 | `pattern.Match` | induction; refutation witness for C41 |
| C42, C43, C44, C46, C51 | generator helpers, codecs, gRPC stubs | direct |
| C45 | `MarshalVT` after `UnmarshalVT` | what decoding leaves behind (`CleanFacts.v`), then C18 |
| C52 | two versions of a schema (`EvolveSpec.v`): `UnmarshalVT` and `MarshalVT` of the older, `UnmarshalVT` of the newer | a relation between the two programs' messages, kept by decoding (`EvolveFacts.v`) and resolved by re-encoding (`EvolveRT.v`) |
| C49 | `ResetVT`, `ReturnToVTPool` | induction on depth |
| C50 | `pattern.Match` against a declarative meaning of patterns | soundness for all patterns; completeness for flat ones |

## Trusted base

* Coq's kernel (8.16.1, including `vm_compute`) and the standard library. Only
  `ZArith`, `List`, `Bool`, `Lia`, `Permutation`, `Sorted` are imported; no other
  library, no plugin, no functor, no axiom.
* `Print Assumptions` stands under every property theorem. For every one of them
  Coq answers "Closed under the global context": no axioms, no section
  hypotheses. (The list of names is in `MANIFEST.json`; `tools/manifest.py`
  collects it from `rocq/theories/Props*.v`.)
* The reading of the Go code embodied in the model. Every definition cites the
  lines it models and says what it leaves out.

### Parts of the code that are modelled

| code in /repo | model |
|---|---|
| `protohelpers/protohelpers.go` (all of it) | `Helpers.v`, `Marshal.v` (EncodeVarint); as statements: `HelperCode.v` |
| `generator/helpers.go` (KeySize, ProtoWireType) | `Helpers.v`, `Schema.v`; KeySize as statements: `HelperCode.v` |
| `features/size/size.go` | `Size.v` (what the printed code computes), `GenSize.v` (the code it prints) |
| `features/marshal/marshalto.go`, both orders (`marshal`, `marshal_strict`) | `Marshal.v` (what the printed code does), `GenMarshal.v` (the code it prints) |
| `features/unmarshal/unmarshal.go`, `unmarshal` | `Unmarshal.v` (what the printed code does), `GenUnmarshal.v` (the code it prints) |
| the same, `unmarshal_unsafe` | `Unsafe.v`, `GenUnmarshal.v` |
| both, on memory | `HeapDec.v`; programs that call them: `HeapHist.v` |
| `features/equal/equal.go` | `Equal.v`, `GenEqual.v` (the code it prints) |
| `features/clone/clone.go` | `Clone.v` (values), `Heap.v` (memory), `GenClone.v` (the code it prints) |
| `features/pool/pool.go`, `generator/generatedfile.go` Alloc | `Pool.v` (values), `Heap.v` (Alloc), `HeapDec.v` (memory), `GenPool.v` (the code it prints) |
| `generator/pattern/match.go` | `Pattern.v` |
| `generator/features.go`, ObjectSet and Config of `generator/generator.go`, ShouldPool and ShouldIgnoreUnknownFields of `generator/generatedfile.go` | `Generator.v` |
| `cmd/protoc-gen-go-vtproto/main.go`, Generate and generateFile of `generator/generator.go`, the tables and IsLocal/WellKnown functions of `generator/generatedfile.go`, GenerateFile of every feature | `Driver.v` (names only) |
| `codec/grpc`, `codec/drpc` (not the JSON functions) | `Generator.v` |
| `types/known` (not UnmarshalVTUnsafe) | `KnownTypes.v` |
| `features/grpc/grpc.go` (not comments and deprecation options) | `Generator.v` (paths, descriptors, indices, handlers), `GenRpc.v` (the code it prints) |

### Parts that are not modelled

* The text of the generated files: package clauses, imports, comments, build
  tags, `protogen` itself. The model is an interpreter of the statements the
  features print, not of their text - except for SizeVT, the marshalling and unmarshalling
  methods, EqualVT, CloneVT and the pools,
  where C59-C64 connect the two: `GenSize.v`, `GenMarshal.v`, `GenUnmarshal.v`, `GenEqual.v`,
  `GenClone.v` and `GenPool.v` print
  the code, `GoSem.v`, `GoMarshal.v`, `GoUnmarshal.v`, `GoEqual.v`, `GoClone.v` and `GoPool.v` run it, and `PropsText.v`,
  `PropsPrint.v`, `PropsUnprint.v`, `PropsEqPrint.v`, `PropsClPrint.v` and `PropsPoPrint.v` compare the text with the generated files in /repo
  (read by `tools/gotext.py`, white space dropped). For these the trusted base includes
  the reading of Go in `GoSem.v`, `GoMarshal.v`, `GoUnmarshal.v`, `GoEqual.v`, `GoClone.v` and `GoPool.v`: typed nil pointers in interfaces, 64-bit int arithmetic, range, scopes,
  type switches and assertions, slices of the buffer passed to callees,
  make and copy; a range over a map visits the entries in the order the model lists them, and
  proto.Clone shares nothing with its argument. C65 does the same for the hand-written helpers:
  `GoFun.v` is the reading of Go (bits.Len64 is `Len64` of `Helpers.v`; int is 64 bits wide). C66 does it
  for the gRPC stubs: `GoRpc.v` is the reading of Go, `RpcNet.v` stands for google.golang.org/grpc (no loss of
  connection; a blocked RecvMsg is not a step).
* Weak fields (`IsWeak`) and lazy fields; extensions except in UnmarshalVT (where
  C28 shows what happens to them). SizeVT, MarshalVT, EqualVT and CloneVT ignore
  extensions.
* JSON, gRPC's network, `debug.ReadBuildInfo`, `cmd/` beyond flag handling and the
  run of C70; the header that generateFile prints.
* Data races: the methods are modelled as running alone on their arguments. C57
  interleaves whole operations of goroutines, not their single steps.
* Integer `len` and index arithmetic is 64-bit; 32-bit platforms are out of scope.
* Test and conformance programs.

### Contracts assumed of code outside /repo

They are hypotheses of the theorems that need them, never axioms, and each is shown
to be satisfiable by a concrete instance (`Ex.v` and the Examples).

| contract | about | used in |
|---|---|---|
| `up_enc_ok`, `up_len_ok` | `proto.Size`, `proto.Marshal`, `proto.CheckInitialized` on messages without helpers agree with the wire format | C08-C18, C45 |
| `up_compact` | upstream's encodings are no longer than those of the records they stand for | C45 |
| `up_dec` (part of `decodes`) | `proto.Unmarshal` of a message without helpers | C18-C30 |
| `up_eq_ok` | `proto.Equal` is an equivalence that agrees with the content | C31-C33 |
| `up_clone_ok` | `proto.Clone` returns a message of the same content | C34, C36, C37, C55, C57 |
| `up_fresh`, `up_holds` | `proto.Clone` allocates what it returns | C35 |
| `up_confined` | `proto.Unmarshal` touches what it reaches from its target, and new objects; of byte arrays only those of unknown fields | C39, C53 |
| `up_owns` | `proto.Unmarshal` of a message that shares nothing leaves one that shares nothing and holds the tree `up_dec` gives, or, if it fails, the old one (a simplification) | C54, C55, C57 |
| `up_clone_owns`, `up_clone_more` | `proto.Clone` of a message that shares nothing makes new objects that hold the tree `up_clone` gives; it does not look into spare capacity and gives a message one can decode into | C55, C57 |
| `up_no_nil`, `up_trim` | the lists of messages in what `proto.Unmarshal` gives have no nil elements; `proto.Marshal` does not look into spare capacity | C55, C57 |
| `rate_dec`, `rate_ext` | what `proto.Unmarshal` makes is bounded by a constant per byte | C58 |
| the capacity `append` chooses | any function of the length (at least the length) | C39, C53, C54, C55, C57 |
| histories in `PoolSpec.v` | `sync.Pool.Get` returns an object put before, or makes a new one; every object is handed out once per Put | C36, C37, C49 |
| order of `range` over maps | any permutation | C15, C16, C42, C43 |
| `utf8.DecodeRuneInString` | modelled in `Pattern.v` (`decode_rune`) | C40, C41, C50 |
| `sort.Slice` on distinct names | modelled as insertion sort | C42 |
| gRPC's dispatch of paths | modelled in `Generator.v` (`serve`) | C51, C66 |
| gRPC's ClientConn, server and streams | modelled in `RpcNet.v`: the codec's bytes reach the handler of the path and back; streams are queues | C66 |

`wf_schema` (Typing.v) collects what `protoc` guarantees about descriptors: numbers in
range and distinct, oneof members share a struct member, map keys of scalar type, packed
only where allowed. `wt_msg` is what the Go type checker guarantees about values.

## What the code gets wrong

Claims that are false of the code are kept in `properties.jsonl` and refuted by a
theorem whose name ends in `_refuted`; the part that holds is proved next to it.

| claim | witness |
|---|---|
| C05 | Skip does not compare the number of an end-group tag with the start |
| C18, C19, C49 | nil standing for a message with required fields; nil in a oneof wrapper; nil element in a list of an unpooled type |
| C20 | a map entry with its value given twice: integers are or-ed |
| C21, C25 | required fields are checked per call and per buffer |
| C27 | every group field is rejected (the loop compares the wrong tag) |
| C28, C47 | extensions and messages without helpers are replaced, not merged |
| C29 | five kinds of malformed input are accepted |
| C30 | negative zero in a field without presence is dropped |
| C36 | a pooled message may have an empty, non-nil bytes field with presence |
| C37 | a list shortened by reslicing leaks into later messages |
| C53 | UnmarshalVT into a message that UnmarshalVTUnsafe filled (or that came from a pool after that) overwrites the first buffer |
| C56 | a structpb.Value that wraps a nil Struct or ListValue panics when decoded into |
| C54 | in a receiver with one object at two places, decoding into one place changes the other |
| C55 | a message used after ReturnToVTPool changes under its user; one returned twice is handed out twice |
| C35 | a clone's strings still alias the buffer of UnmarshalVTUnsafe |
| C40, C41, C50 | invalid UTF-8; `{a,[}]}` passes validation and fails in Match; four patterns that miss matches |
| C44 | the dRPC codec panics on values without helpers |
| C45 | a map entry without value leaves nil behind |
| C48 | no nesting limit |
| C67 | stubs of two services may declare the same name |
| C69 | marshal without size, lists of groups, wrap with messages of the run: the code does not compile |
| C71 | half of a package is generated; mempool without the feature pool; a pooled message of another package; google.protobuf in several Go packages: names are used that nobody declares |
| C72 | wrap with messages inside messages: methods of types that are not declared |
| C74 | lists of groups, pooled messages without the feature pool, extensions under wrap: UnmarshalVT does not compile |

## Files (rocq/theories)

Models: the table above, and `Base.v` (Go integers, buffers, outcomes), `Schema.v`,
`Value.v`.

Specifications (no reference to the model's functions): `WireSpec.v`, `RecordSpec.v`,
`MsgSpec.v`, `DecodeSpec.v`, `ContentSpec.v`, `EqualSpec.v`, `CloneSpec.v`,
`PoolSpec.v`, `AmplifySpec.v`, `UnsafeSpec.v`, `PatternSpec.v`, `HeapSpec.v`, `HeapDecSpec.v`,
`HeapOwnSpec.v`, `KnownSpec.v`, `Typing.v`, `GoTypes.v`, `GoTypesUnmarshal.v`, `GoTypesPool.v`, `GoTypesEqual.v`, `GoTypesClone.v`, `GoTypesRpc.v` (Go's static rules; enum types are not told apart).

Properties, each with its Examples: `PropsHelpers.v` (C01-C07, C46), `PropsMarshal.v`
(C08-C17), `PropsUnmarshal.v`, `PropsRecords.v` (C19-C29, C47, C48), `PropsRoundTrip.v`
(C15, C16, C18, C24, C30), `PropsReencode.v` (C45),
`PropsEvolve.v` (C52), `PropsEqual.v` (C18, C31-C33),
`PropsClone.v` (C22, C34), `PropsPool.v` (C36, C37, C49), `PropsUnsafe.v` (C38, C39),
`PropsPattern.v` (C40, C41, C50), `PropsGen.v` (C42-C44, C51), `PropsHeap.v` (C35), `PropsHeapDec.v` (C39,
C53), `PropsHeapSim.v` (C54), `PropsHeapHist.v` (C55), `PropsKnown.v` (C56),
`PropsHeapPar.v` (C57), `PropsAmplify.v` (C58), `PropsText.v` (C59), `PropsPrint.v` (C60),
`PropsUnprint.v` (C61), `PropsEqPrint.v` (C62), `PropsClPrint.v` (C63), `PropsPoPrint.v` (C64), `PropsFun.v` (C65), `PropsRpc.v` (C66, C67),
`PropsCompile.v` (C68, C69), `PropsCompileUnmarshal.v` (C73, C74), `PropsInjective.v` (C75), `PropsCompilePool.v` (C76), `PropsCompileEqual.v` (C77), `PropsCompileClone.v` (C78), `PropsCompileRpc.v` (C79), `PropsDriver.v` (C70-C72).

`Ex.v` holds the example schema and messages. All other files are proofs.

## Tests of the theorems

`seeded/LOG.jsonl` lists edits of the model in the manner of realistic bugs, and which
theorems stop being provable. `tools/seedlog.py` writes it from the results of the runs,
which take place in a scratch copy outside this directory.
Lines with an empty `theorems_failed` are edits that no theorem about the claim rejected, or runs
that stopped at an earlier proof (`note` says which). Edits that still give a well-typed program
are expected to leave C68 and C73 to C78 provable. For the edits of `GenPool.v` and `GenEqual.v`
tested against C76 and C77, a theorem is listed as failed because an instance of it computes to
false for the edited program; the proofs were not rebuilt. For C78 both were done.
For C79 only `PropsCompileRpc.v` was rebuilt (without its import of `PropsRpc.v`, which it does not
need: the unedited model was built the same way as a control and passed). There a theorem is listed
as failed because its proof no longer closes; a build stops at the first one, so a line with `C79_text`
says nothing about `C79_stubs`. The edit of `clientSignature` had survived before C79 was added.
