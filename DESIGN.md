# Design: a machine-checked model of the C container collection

Prover: Coq 8.16.1, files under `rocq/theories`. Source modelled: `/repo` (C23,
read as text, never built).

## 1. How the code is modelled

* **Model files** (`*Model.v`) contain computable Gallina only, one definition per
  C function, each with a comment citing file and lines and any simplification.
* **Outcome type.** Every operation that can go wrong in C returns
  `Ok v | UB | Fuel`. `UB` is undefined behaviour (out of bounds access, NULL or
  dangling dereference, `% 0`, overlapping `memcpy`, failing debug assertion).
  `Fuel` is "the loop bound given to the model ran out"; every positive theorem
  excludes both outcomes, so it also states termination and memory safety.
* **Array containers** (buffer, fdeq, fpq, fhm): storage is a list of slots whose length
  is the capacity; `size_t` values are naturals or integers, with explicit `mod 2^64` where a claim
  is about wrap-around. C57 shows that the sizes computed with naturals are those computed modulo
  2^64 (allocators granting at most 2^60 bytes). `memcpy` between disjoint regions is list update.
* **Pointer containers** (sll, dll, pq, om, rom, omm) and the index-linked trees
  (fom, frm): one `gmap addr` per field (`LinkHeap.v`); each C statement that reads or writes a
  link reads or writes the map and is `UB` when the address is absent.
  The sentinel is a node in the heap, as in C.
* **Callbacks**: comparison, hash and key equality are Coq functions; the
  theorems assume a total preorder (resp. an equivalence compatible with the hash), never
  anything more. The allocator is an oracle: a boolean per call says whether it succeeds.
* **User payload**: an abstract type; struct/offset arithmetic (`struct_base`,
  `elem_in`) is identity because the intrusive node and the payload are one heap
  cell, except where a finding is about that arithmetic.

## 2. Properties and plan

| id | what is modelled | how it is proved |
|---|---|---|
| C01 | buffer.c operations on a slot list | refinement of a list, induction over histories |
| C02 | `ccc_buf_insert` | expected false: refuted by a computed witness; the provable remainder as `_partial` |
| C03 | size functions with `mod 2^64` | refuted by witness for `size_plus`; partial for the rest |
| C04 | `ccc_buf_erase` with overlapping memcpy as UB | refuted by witness; partial: no UB exactly when at most one element follows, and result then right |
| C05 | iterators as slot indices | forward proved; `rbegin` refuted by witness |
| C06, C07 | fdeq ring arithmetic on a slot list | refinement of a (bounded) list, history induction |
| C08, C09 | range pushes, split copies | refinement; data loss on growth from capacity 0 refuted |
| C10 | begin/next/rbegin/rnext | induction on remaining distance |
| C11 | clear | refuted with destructor; proved without |
| C12-C15 | fpq on a slot list incl. swap slot | permutation + heap order invariant; drain sortedness by induction |
| C16-C18, C21 | Robin Hood table as list of slots | table invariant (probe-sequence order), refinement of a finite map |
| C19, C20 | entry status flags, clear | refuted by witness at the load limit; partial below it |
| C22, C23, C43 | sll on a heap shared by any number of lists | chain predicate, refinement of a family of lists; range end and splice side refuted |
| C44 | clear of intrusive containers | induction on the removal loop, destructor calls recorded |
| C24-C26 | dll on a heap | doubly linked segment predicate; pop_front and erase refuted |
| C27-C29 | pairing heap on a heap of nodes | tree/ring predicate; interactive programs against a nondeterministic specification, since the front after a pop depends on the shape; C29 refuted by witness |
| C30, C31 | splay tree on a heap, parent links | tree predicate; splay by a loop invariant on the in-order list with two open spines; refinement of an ordered finite map (`MapSpec.v`) |
| C32 | flat splay: the splay code of C30 (sentinel 0, `SplayModel.v`) over the slots of `FlatModel.v` | as C36 without balance: refinement of `FlatSpec.v`, relocation lemma shared with C36 |
| C33-C35 | WAVL tree on a heap with parity bits; loops get a budget logarithmic in the size | zippers, rank invariant seen through parities, height bound; refinement of `MapSpec.v` |
| C36 | flat WAVL: the same tree code (`WavlModel.v`, sentinel 0) over slots of a buffer (`FlatModel.v`), relocation | refinement of a map with slots (`FlatSpec.v`), relocation lemma, balance as in C34 |
| C37, C38 | splay multimap with duplicate rings; the splay code of C30 over the multimap's link function | tree predicate with rings: the tree of C30 with the ring heads' parents written back (`OmmRings.v`), rings related to arrival order (`OmmGroups.v`); refinement of a queue searched by key (`OmmSpec.v`) |
| C39 | clear_and_free of flat containers | refuted by witness |
| C40 | `ccc_fdeq_insert_range` incl. the middle move | refuted by witnesses; partial when nothing wraps |
| C41 | copy of the flat containers | equal contents on success; failure refuted |
| C42 | fpq emplace macro | equal to push unless memory is refused; refuted then |
| C45 | validate of the ordered maps and the multimap on memory of any content (`ValidSpec.v`: links lead to elements, the sentinel or NULL) | the range of keys checked at each node bounds the recursion, so it ends; from the answer true the tree predicate of the container is rebuilt (`TreeValid.v`), and with it the refinement of C30, C32, C37 |
| C46 | validate of the hash map on a table of any content (`FhmValid.v`) | the check of each probe run gives the invariant of the probe order (`FhmMapProofs.v`); what is not checked is a hypothesis, and refuted by a witness each |
| C47 | validate of sll, dll, fdeq, fpq, pq on memory of any content (`ListValid.v`, `QueueValid.v`, `PqValid.v`) | sll: invariant rebuilt from the answer true; fdeq: exact characterisation; fpq: by C13; pq: in any memory the front is unbeaten, and exact when only data and size are damaged; the gaps refuted by witnesses |
| C48 | the functions of C30 with a count of loop turns (`CostModel.v`, `OmCostModel.v`); erasing the counts gives the functions of C30 (`CostErase.v`, `OmCostErase.v`) | potential argument of Sleator and Tarjan in products of sizes instead of logarithms (`SplayCost.v`), carried through the tree predicate (`OmProofs.v`, `OmCalls.v`), sums over histories (`OmCost.v`) |
| C49 | begin, next and the loops over them with a count of links followed | every link of the tree is followed twice in a walk (`WalkCost.v`); the bad shapes are built by histories that insert keys in order (`OmWalkCost.v`) |
| C50 | the functions of the flat priority queue with a count of comparisons (`TickModel.v`, `FpqCostModel.v`); erasing the counts gives the functions of C12-C15 | the index doubles or halves in every turn; heapify by the sum of heights (`FpqCost.v`); allowances in `FpqCostSpec.v` |
| C51 | the functions of the priority queue with a count of comparisons (`PqCostModel.v`); erasing the counts gives the functions of C27-C29 (`PqCostErase.v`) | the potential of Fredman, Sedgewick, Sleator and Tarjan for pairing heaps, as the product of sizes of the binary view of the children lists (`PqPotential.v`); the proofs of C27-C29 (`PqProofs.v`) are about the counted functions and carry it along; shares in `PqCostSpec.v` |
| C52 | searches, ranges, begin and next of the two realtime maps with a count of comparisons and links (`WavlCostModel.v`); erasing the counts gives the functions of C34-C36 (`WavlCostErase.v`) | at most the height of the tree, which C34 bounds; the steps from the root need at least half the rank (`WavlCost.v`, `RomWalkCost.v`, `FlatWalkCost.v`, `FrmWalkCost.v`) |
| C53 | the functions of C32 with a count of loop turns (`SplayCostModel.v`, `FomCostModel.v`); erasing the counts gives the functions of C32 (`FomCostErase.v`) | the potential of C48 (`SplayCost.v`) carried through the proof of the calls of C32 (`FomCost.v`); bounded histories in `FlatCostSpec.v` |
| C54 | begin, next and the loops over them as in C52 | the walks of C52 (`FlatWalkCost.v`); the bad shapes of C49 built by insertions into the array (`FomWalkCost.v`) |
| C55 | the functions of C37 with a count of loop turns (`OmmCostModel.v`); erasing the counts gives the functions of C37 (`OmmCostErase.v`) | the potential of C48 on the tree of different keys, rings weighing nothing (`OmmCost.v`); histories with a bounded number of keys in `OmmCostSpec.v`, every history is one (`OmmCostBounds.v`) |
| C56 | as C55 | sequences of calls at one end of the map in `OmmEndsSpec.v`; the root stays the end key while an element with it remains (`OmmEndsCost.v`); families of maps on which the other calls take any number of turns (`OmmEndsDear.v`) |
| C57 | the size computations of the array containers modulo 2^64 (`WordModel.v`): bytes asked for, capacity, size, offset of the slot | invariant "the block has capacity times element size bytes" over histories with an allocator that grants at most 2^60 bytes (`WordProofs.v`); the natural number models of the containers compute the same sizes (`WordSame.v`) |
| C58 | the calls of C06-C09 with a count of the elements written (`FdeqCostModel.v`); erasing the counts gives the functions of C06-C09 (`FdeqCost.v`) | potential: twice the size less the capacity |
| C59 | the calls of C16 with a count of the slots cleared and scanned by maybe_resize, probes not counted (`FhmCostModel.v`); erasing the counts gives the functions of C16 (`FhmCost.v`) | potential: 13 times (twice the size less the capacity); the next prime is at most four times the number asked for |
| C60 | the calls of C01, C12, C32 and C36 with a count of the slots moved by each granted request, the smaller one of the old and the new capacity (`GrowModel.v`); erasing the counts gives the functions of those properties (`Grow.v`, `GrowMaps.v`) | potential: twice the size less the capacity, and one more where a slot is kept for swapping |
| C61 | `util/str_view.c`: pointers as an array of bytes and an index (`SvModel.v`); the searches for one to four bytes and two-way string matching in both directions | specification by occurrences in lists of bytes (`SvSpec.v`); critical factorization theorem for words as functions (`SvFactor.v`), the loops of the search by the invariant that no occurrence was skipped (`SvTwoWay.v`), windows as numbers in base 256 (`SvSearch.v`); the search from right to left for four bytes refuted for bytes from 128 on |
| C62, C64 | comparisons, slices, construction and filling of string views (`SvCompare.v`) | order of the dictionary as a relation, shown to be functional; the common prefix as the invariant of the loops; `sv_strncmp`, `sv_fill` and `sv_remove_suffix` refuted by witnesses |
| C63 | sets of bytes as numbers of 256 bits (`SvSets.v`) | the two searches from the right see a run of the set only when it ends before the end of hay; refuted where that matters |
| C65 | tokens in both directions (`SvTokens.v`, `SvRtokens.v`) | specification: cutting a text at the first (last) occurrence again and again, shown to be unique; from right to left refuted for sources that begin with delimiters (`only_delims`) and proved for all others |
| C66, C67 | the searches and the loop over tokens again in a monad that counts the bytes read (`SvCostModel.v`) | erasing the counts gives the functions of `SvModel.v`; positions of hay compared with the right part only grow, and the left part is shorter than the shift that follows a mismatch in it; for tokens, the work is paid by the delimiters and bytes skipped (`SvCost.v`) |
| C68 | the pointers into string views and the small functions (`SvWalkModel.v`) | walks as lists of bytes; pointers from right to left kept one higher, since the end is one before the first byte (`SvWalk.v`) |
| C69 | begin, next and the loops over them in the multimap as counted for C55 (`OmmCostModel.v`) | the walks of C49 over the tree, with free steps in the rings (`OmmWalkCost.v`); the bad shapes of C56 |
| C70 | the walks and ranges of C37 | refuted by a map of three elements; what holds is C37's |
| C71 | all of `src/types.c` (`TypesModel.v`) | statuses as sets of marks, by their bits (`TypesProperties.v`) |

## 3. Trusted base

* Coq's kernel (and `vm_compute` for the witnesses).
* Axioms: as printed by `Print Assumptions` after each theorem in
  `theories/*Properties.v`; the goal is "Closed under the global context" for all.
* Hash map: the load test `size / capacity <= 0.8` in `double` is taken exactly;
  the two agree for capacities below 2^50.
* Not modelled: `ccc_frm_data`, `ccc_fom_data` (the raw array), a map copied to
  itself, and NULL passed for the container or another required pointer. Of `util/` only
  `str_view.c` is modelled; its sizes are natural numbers, a subtraction below zero is `UB`.
* The reading of C described in section 1 and in the comments of the model files.

## 4. Disagreements found between code and documentation

Each is proved as a `_refuted` theorem with a concrete witness.

* buffer: `insert` never stores the data for i < size and overruns a full
  buffer (C02); `size_plus` accepts wrapping arguments, `alloc` shrinks below
  the size (C03); `erase` is an overlapping `memcpy` when two or more elements
  follow (C04); `rbegin` is one past the last element (C05).
* deque: the first growth of a range push reserves 8 slots whatever the
  length, so only the last 8 elements are kept (C08, C09); a front range longer
  than the ring keeps its back rather than its front, an empty front range
  moves the front index out of bounds (C09); `clear` with a destructor keeps
  the size, and destroys nothing when the ring is full (C11); `clear_and_free`
  with a destructor keeps the size (C39); `insert_range` in the middle goes out
  of bounds or loses elements when the tail wraps, uses a dangling position
  after growth, and returns the last inserted element at begin (C40); a failed
  `copy` changes the destination (C41).
* flat priority queue: `emplace` returns NULL on a full queue but has already
  counted the element (C42); `clear_and_free` keeps the size (C39); a failed
  `copy` changes the destination (C41).
* hash map: a table of three to five slots fills completely and then reports
  stored keys absent; with one slot the size wraps to SIZE_MAX; `get_key_val`
  and `remove` on a fixed map whose memory was never written read it (C18). On
  a fixed table at its load limit `remove_entry` and `and_modify` ignore a
  present key and the macro forms of `or_insert` and `insert_entry` return NULL
  (C19). `clear` without a destructor leaves the keys to be found by
  `get_key_val` and `remove`; with a destructor it clears nothing (C20).
  `clear_and_free` with a destructor keeps the size (C39). `copy` into a larger
  table keeps slot positions, so keys are lost, and a failed `copy` changes the
  destination (C41).
* singly linked list: `erase_range` and `extract_range` include the end that the
  header calls exclusive, and `splice`/`splice_range` insert after the position,
  not before it (C43). Not modelled, by reading only: the `emplace_front` macro
  does not compile (calls the allocator with two arguments); iterating an
  extracted range with `next` ends at NULL minus the member offset.
* doubly linked list: `pop_front` and `clear` leave the back link of the new
  front, or of the emptied sentinel, as it was. Afterwards `push_back` on the
  emptied list loses its element, `erase` of the new front leaves it reachable
  in a list of size zero, and backward traversal visits the popped element,
  which is a use after free if the list allocates; `validate` does not notice
  (C24). `erase` returns the erased element, not its successor (C25).
  `splice_range` between lists asserts the length of the run against the
  destination, so a debug build aborts on runs longer than the destination's
  size plus one (C26). `insert` dereferences the position before testing it.
* priority queue: push on an allocating queue returns the new copy but links in
  the user's own node (at a wrong address if the node is not the first member);
  pop then frees memory that was not allocated. `emplace` allocates a second,
  leaked copy and returns a node that is not in the queue if that allocation is
  refused. `erase` leaves the links of an element the user owns, so a second
  erase is accepted (C27). `cut_child` leaves the sibling links of an element that
  becomes the front after a priority change: `validate` rejects the queue, and a
  later increase of that front unlinks other elements, after which pop loses
  them and `clear` never ends (C29).
* ordered map: `contains` on an empty map splays and compares the sentinel, whose
  memory around the node is not a user element; `try_insert_w` and
  `insert_or_assign_w` leave the status at insert error when they did insert (C30).
* realtime ordered map: `try_insert_w` and `insert_or_assign_w` leave the status at
  insert error when they did insert (C33).
* flat realtime ordered map: the entry of `insert` over an existing key unwraps to the
  new value in the map, where the header promises the old one; `clear` before the
  first insertion leaves the sentinel uninitialised (`validate` fails from then on),
  reports an input error if there is no memory yet, or with a destructor destroys slots
  that were never written (C36). `clear_and_free` keeps the size, and the next insertion
  writes through NULL (C39). A failed `copy` leaves the destination with the root and
  size of the source (C41).
* flat ordered map: the same for `insert`, `clear_and_free` and `copy` (C32, C39, C41);
  `remove` does not write the removed value to the struct the user passed; `contains` on
  an empty map compares with slot 0, so that a removed key can be reported as present,
  and memory never written is read if there was no element yet; `clear` with a
  destructor before the first insertion destroys slots that were never written (C32).
* ordered multimap: with an allocator `try_insert`, `insert_or_assign`, `or_insert` and
  `insert_entry` link the user's struct where the header promises an allocated copy, so
  that the map later frees memory it did not allocate; `contains`, `try_insert_w` and
  `insert_or_assign_w` as in the ordered map (C37). `max` and `min` of an empty map are the
  address of the sentinel, not NULL; `pop_min` subtracts the node's offset twice and
  frees a wrong address unless the node is the first field (C38). By reading only:
  `extract` of an element inside a ring leaves its links; `multimap_erase_node`
  decrements the size before it finds that the key is not there.
* validate: of the ordered maps reads through a parent link after it was found wrong, so
  NULL there is dereferenced; of the WAVL maps does not check the balance; of the flat
  maps answers true if the root is lost, and does not compare slots with the size, so
  that elements outside the slots in use pass and are overwritten later; of the multimap
  does not check the rings: a duplicate of another key passes, and a ring linked wrongly
  makes it run forever (C45).
* validate of the hash map does not look at an element that sits right before its home
  slot (the loop over the run is then empty), nor at the two swap slots, does not compare
  stored hashes with keys, does not look for duplicates and accepts a full table, in
  which nothing is found any more (C46).
* validate of the doubly linked list does not check that back links mirror the forward
  links; of the double ended queue accepts an empty deque whose front is outside the
  array; of the flat priority queue accepts a heap that fills its array, on which pop is
  undefined; of the priority queue looks at parent and sibling links of the youngest
  child only: wrong parents of others pass, elements can be counted twice, and a ring
  linked wrongly makes it run forever (C47).
* costs of the ordered map: `begin` and `rbegin` are documented as amortized O(lg N), but
  do not splay, so that each of many calls follows N - 1 links; `next` and `rnext` are
  documented as O(1), but follow N - 1 links in some maps; so do the ranges, which the
  header gives as O(lg N) amortized (C49). `clear` is documented as O(N); the bound shown
  by C48 is O(N lg N), and whether it is linear is left open. The flat ordered map is
  documented and behaves in the same way (C54); its `clear` does not splay.
* costs of the realtime ordered maps: `next` and `rnext` are documented as O(1), but the
  step from the root of a map of N elements follows about lg N / 2 links or more; the
  bound O(lg N) of a single step and two links per element over a whole walk hold (C52).
* costs of the ordered multimap: after `max` the header promises a pop in O(1). `pop_max` of
  the last element with its key splays what is left and may take N turns; `pop_min` after
  `min` does not. `extract` and `remove_entry` search again for the key of the element and
  join what is left, and `or_insert` and `insert_entry` through a vacant entry splay for the
  new key; each may take N turns where the header says O(1) (C56).
* buffer and flat priority queue: `alloc` multiplies the element size by the capacity without
  a check. A capacity of 2^61 + 1 elements of 8 bytes asks for 8 bytes, is answered OK, and
  the second push returns a slot outside the memory (C57).
* hash map: `clear` without a destructor is documented O(1), but leaves the whole table to be
  cleared by the next call that asks for an entry; insertions after `clear` take time
  proportional to the capacity however few elements there ever are (C59).
* string views: `sv_rfind` and `sv_rmatch` with a needle of four bytes shift the byte that enters
  the window by 24 as an int, which is undefined for bytes from 128 on; the empty needle is
  contained in every view but the empty one (C61).
* string views: `sv_strncmp` looks at byte n when the first n agree, and says less when equal
  strings are shorter than n (C62). `sv_find_first_of` with two bytes or more in the set does
  not count the bytes and leaves the view, and the array, when none occurs;
  `sv_find_last_of` never sees a run that ends the hay; `sv_find_last_not_of` sees only bytes
  that follow one of the set (C63). `sv_fill` does not terminate the destination when the
  source is empty, and `sv_remove_suffix` of everything answers the start of the view where
  the header says its end (C64).
* string views: from right to left a source of delimiters only has a token of one byte
  outside of it, a source beginning with two delimiters has a delimiter as its first
  token, and `sv_rbegin_tok` answers an empty view for a NULL delimiter, where the header
  says the entire source (C65).
* walks of the ordered multimap: `begin` is documented to give the oldest minimum and `next`
  to go up, `rbegin` and `rnext` the other way; in the code `begin` and `next` go down and
  `rbegin` and `rnext` up. `equal_range` goes down as well: for bounds in ascending order its
  end is not met by `next` (C70). `begin` and `rnext` follow up to N links in every one of
  many calls, where the header says amortized O(lg N) and O(1) (C69).
* entries: `ccc_entry_input_error` says no for NULL, for which `ccc_get_entry_status` answers an
  input error. `ccc_entry_unwrap` is documented to give NULL for a vacant entry, but gives the
  pointer it holds, as in the entry that `ccc_omm_insert` returns for a new key (C71).
