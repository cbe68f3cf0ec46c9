{"id": "C01", "title": "Buffer behaves as a growable vector", "statement": "Starting from an empty buffer, after any sequence of push_back, alloc_back, pop_back, pop_back_n, swap, write and copy calls, the elements read at indices 0..size-1 are exactly those of a mathematical list driven by the same calls; a push that needs memory when allocation is forbidden or refused returns NULL and leaves the contents, size and capacity unchanged; size never exceeds capacity.", "quantifier": "all element values, all call sequences, all starting capacities, all patterns of allocation success and failure", "why_tests_cant": "A test fixes one operation sequence, size and capacity; the claim is about every history, where capacity, wrap position and reallocation points are arbitrary.", "anchors": ["src/buffer.c:ccc_buf_alloc", "src/buffer.c:ccc_buf_alloc_back", "src/buffer.c:ccc_buf_push_back", "src/buffer.c:ccc_buf_pop_back_n", "src/buffer.c:ccc_buf_swap", "src/buffer.c:ccc_buf_write", "src/buffer.c:ccc_buf_copy"]}
{"id": "C02", "title": "Buffer insert in the middle", "statement": "For a buffer that is not full and any i <= size, insert(i, data) makes the contents the old contents with data placed before old element i, and returns the address of slot i; on a full buffer and for i > size it returns NULL and changes nothing.", "quantifier": "all buffers, indices and element values", "why_tests_cant": "Which slots are overwritten depends on i, size and capacity jointly; tests sample a few positions with repeated values, which hides that the new value is never written.", "anchors": ["src/buffer.c:ccc_buf_insert", "ccc/buffer.h:ccc_buf_insert"]}
{"id": "C03", "title": "Buffer size never exceeds capacity", "statement": "No call to size_plus, size_minus, size_set, alloc or any element operation leaves size greater than capacity; a request that would is rejected with an input error.", "quantifier": "all size_t arguments including those where addition wraps modulo 2^64, all states", "why_tests_cant": "Only arguments near SIZE_MAX exercise the wrap, a 2^64 argument space cannot be sampled.", "anchors": ["src/buffer.c:ccc_buf_size_plus", "src/buffer.c:ccc_buf_size_minus", "src/buffer.c:ccc_buf_size_set", "src/buffer.c:ccc_buf_alloc"]}
{"id": "C04", "title": "Buffer erase closes the gap", "statement": "erase(i) with i < size removes exactly element i, keeps the order of all others, decrements size and has no undefined behaviour; with i >= size or an empty buffer it changes nothing and reports an input error.", "quantifier": "all buffers and indices", "why_tests_cant": "memcpy on overlapping storage usually does the intended thing on one platform; a passing run says nothing about definedness.", "anchors": ["src/buffer.c:ccc_buf_erase", "ccc/buffer.h:ccc_buf_erase"]}
{"id": "C05", "title": "Buffer iteration", "statement": "Following begin, next until end visits elements 0..size-1 in order exactly once; following rbegin, rnext until rend visits them in the opposite order exactly once, and never yields an address outside the stored elements.", "quantifier": "all buffers", "why_tests_cant": "A reverse walk that starts one slot too late reads allocated but unused memory, so tests on buffers with spare capacity silently pass.", "anchors": ["src/buffer.c:ccc_buf_begin", "src/buffer.c:ccc_buf_next", "src/buffer.c:ccc_buf_rbegin", "src/buffer.c:ccc_buf_rnext", "src/buffer.c:ccc_buf_rend"]}
{"id": "C06", "title": "Fixed double ended queue is a bounded ring", "statement": "For a deque without allocation and with capacity N > 0, after any sequence of push_front, push_back, pop_front, pop_back the contents (front to back, as seen by at(i), front, back, size) equal those of a list on which push_back appends and, if longer than N, drops the oldest front element, and push_front prepends and, if longer than N, drops the last element.", "quantifier": "all capacities, element values and call sequences", "why_tests_cant": "A test fixes one operation sequence, size and capacity; the claim is about every history, where capacity, wrap position and reallocation points are arbitrary.", "anchors": ["src/flat_double_ended_queue.c:alloc_front", "src/flat_double_ended_queue.c:alloc_back", "src/flat_double_ended_queue.c:ccc_fdeq_pop_front", "src/flat_double_ended_queue.c:ccc_fdeq_pop_back", "src/flat_double_ended_queue.c:ccc_fdeq_at"]}
{"id": "C07", "title": "Growing double ended queue never loses elements", "statement": "With allocation allowed, any sequence of single pushes and pops keeps exactly the elements of an unbounded list deque, across any number of reallocations at any ring offset; when allocation is refused the push returns NULL and the contents are unchanged.", "quantifier": "all call sequences, offsets and allocation failure patterns", "why_tests_cant": "Reallocation must re-base a wrapped ring; the offset at which growth happens depends on the whole history.", "anchors": ["src/flat_double_ended_queue.c:maybe_resize", "src/flat_double_ended_queue.c:alloc_front", "src/flat_double_ended_queue.c:alloc_back"]}
{"id": "C08", "title": "Range push at the back", "statement": "push_back_range(n, elems) leaves, in order, the old contents followed by elems; on a fixed ring only the last N of these survive; on a growing deque all of them survive.", "quantifier": "all contents, ranges of any length, offsets and capacities", "why_tests_cant": "The copy is split at the wrap point, and range lengths beyond the capacity take a different path.", "anchors": ["src/flat_double_ended_queue.c:push_back_range", "src/flat_double_ended_queue.c:maybe_resize"]}
{"id": "C09", "title": "Range push at the front", "statement": "push_front_range(n, elems) leaves, in order, elems followed by the old contents; on a fixed ring the elements overwritten are those at the back; on a growing deque all survive.", "quantifier": "all contents, ranges of any length, offsets and capacities", "why_tests_cant": "The copy is split at the wrap point, and range lengths beyond the capacity take a different path.", "anchors": ["src/flat_double_ended_queue.c:push_front_range", "ccc/flat_double_ended_queue.h:ccc_fdeq_push_front_range"]}
{"id": "C10", "title": "Double ended queue iteration", "statement": "Following begin/next until end visits the contents front to back exactly once, for every offset and size including a full ring; rbegin/rnext visits them back to front exactly once.", "quantifier": "all deque states", "why_tests_cant": "On a full ring the begin and end positions coincide; termination depends on distance arithmetic modulo capacity.", "anchors": ["src/flat_double_ended_queue.c:ccc_fdeq_next", "src/flat_double_ended_queue.c:ccc_fdeq_rnext", "src/flat_double_ended_queue.c:distance", "src/flat_double_ended_queue.c:rdistance"]}
{"id": "C11", "title": "Double ended queue clear", "statement": "clear leaves the deque empty (size 0) and, when a destructor is given, calls it exactly once on every element.", "quantifier": "all deque states", "why_tests_cant": "The full-ring state, where begin and one-past-end coincide, is one of infinitely many states.", "anchors": ["src/flat_double_ended_queue.c:ccc_fdeq_clear", "ccc/flat_double_ended_queue.h:ccc_fdeq_clear"]}
{"id": "C12", "title": "Flat priority queue holds the right multiset", "statement": "After any sequence of push, pop, erase, update, and heapify on a flat priority queue the stored elements are, as a multiset, exactly those pushed (with updates applied) minus those removed; erase removes the element at the handle given and nothing else; a refused push returns NULL and changes nothing.", "quantifier": "all histories, element values, comparison functions that are total preorders, both heap orders, allocation failure patterns", "why_tests_cant": "A test fixes one operation sequence, size and capacity; the claim is about every history, where capacity, wrap position and reallocation points are arbitrary.", "anchors": ["src/flat_priority_queue.c:ccc_fpq_push", "src/flat_priority_queue.c:ccc_fpq_pop", "src/flat_priority_queue.c:ccc_fpq_erase", "src/flat_priority_queue.c:ccc_fpq_update", "src/flat_priority_queue.c:ccc_fpq_heapify"]}
{"id": "C13", "title": "Flat priority queue front is extremal", "statement": "After any such history front is an element that no stored element beats; validate reports true.", "quantifier": "all histories and total preorders, including ones with ties", "why_tests_cant": "A heap violation can stay buried until a particular later pop order brings it up.", "anchors": ["src/flat_priority_queue.c:ccc_fpq_front", "src/flat_priority_queue.c:bubble_up", "src/flat_priority_queue.c:bubble_down", "src/flat_priority_queue.c:update_fixup", "src/flat_priority_queue.c:ccc_fpq_validate"]}
{"id": "C14", "title": "Heapify then drain sorts", "statement": "heapify of any array followed by popping until empty yields the array's elements in priority order, each exactly once.", "quantifier": "all arrays of all lengths and all total preorders", "why_tests_cant": "Sorting correctness over all permutations and ties is not enumerable.", "anchors": ["src/flat_priority_queue.c:in_place_heapify", "src/flat_priority_queue.c:ccc_fpq_pop"]}
{"id": "C15", "title": "Flat priority queue returned references", "statement": "The reference returned by push and by update designates a slot that holds the element just pushed or updated.", "quantifier": "all heaps, positions and values", "why_tests_cant": "The slot depends on the complete bubbling path.", "anchors": ["src/flat_priority_queue.c:ccc_fpq_push", "src/flat_priority_queue.c:ccc_fpq_update"]}
{"id": "C16", "title": "Hash map is a finite map", "statement": "For a hash map started without memory or with zeroed memory for at least six slots, growing or fixed, after any sequence of insert, insert_or_assign, try_insert, or_insert, insert_entry, remove and remove_entry, looking up a key returns the value most recently stored under it, or reports absence if it was never stored or since removed; size is the number of distinct keys. A call that reports failure changes nothing.", "quantifier": "all histories, all hash functions (including constant ones), all keys, all capacities, allocation failure patterns", "why_tests_cant": "Robin Hood displacement and backward shift deletion depend on the whole collision pattern; tests use one hash function and a few thousand keys.", "anchors": ["src/flat_hash_map.c:find", "src/flat_hash_map.c:insert", "src/flat_hash_map.c:erase", "src/flat_hash_map.c:entry", "src/flat_hash_map.c:ccc_fhm_get_key_val", "src/flat_hash_map.c:ccc_fhm_remove"]}
{"id": "C17", "title": "Hash map growth keeps every entry", "statement": "Rehashing into a larger table preserves every key with its value, adds none, and keeps size; if the allocation is refused the old table is unchanged and an insert error is reported.", "quantifier": "all tables, all hash functions, allocation outcomes", "why_tests_cant": "Every entry moves; a single lost entry shows only if that key is looked up later.", "anchors": ["src/flat_hash_map.c:maybe_resize", "src/flat_hash_map.c:next_prime"]}
{"id": "C18", "title": "Hash map probing always terminates", "statement": "In every reachable table an unoccupied slot remains, so a probe for any key ends; a lookup never fails with an error for a map that is usable.", "quantifier": "all reachable tables, every capacity the initialiser accepts, all keys", "why_tests_cant": "Only specific tiny capacities combined with a full history break it.", "anchors": ["src/flat_hash_map.c:find", "src/flat_hash_map.c:maybe_resize", "src/flat_hash_map.c:valid_distance_from_home"]}
{"id": "C19", "title": "Hash map entry operations agree with occupancy", "statement": "and_modify applies its function exactly when the key is present and remove_entry removes exactly when the key is present, whatever the load of the table.", "quantifier": "all tables, including fixed tables at their load limit, and all keys", "why_tests_cant": "The status word carries an extra flag only at the load limit.", "anchors": ["src/flat_hash_map.c:ccc_fhm_and_modify", "src/flat_hash_map.c:ccc_fhm_remove_entry"]}
{"id": "C20", "title": "Hash map clear forgets every key", "statement": "After clear no key is found, size is zero and iteration is empty, with or without a destructor; the destructor runs exactly once per stored entry.", "quantifier": "all tables and keys", "why_tests_cant": "Stale slots are visible only to particular lookups afterwards.", "anchors": ["src/flat_hash_map.c:ccc_fhm_clear", "ccc/flat_hash_map.h:ccc_fhm_clear"]}
{"id": "C21", "title": "Hash map iteration", "statement": "Iterating from begin to end yields each stored key exactly once with its current value and nothing else.", "quantifier": "all tables", "why_tests_cant": "Depends on the occupancy pattern of every slot.", "anchors": ["src/flat_hash_map.c:ccc_fhm_begin", "src/flat_hash_map.c:ccc_fhm_next"]}
{"id": "C22", "title": "Singly linked list is a list", "statement": "After any sequence of push_front, pop_front, extract and erase the elements reached from begin by next until end are exactly those of a mathematical list driven by the same calls, size is its length, and erase and extract return the element following the removed one.", "quantifier": "all histories, list lengths and element positions", "why_tests_cant": "Pointer rewiring bugs depend on position (first, last, adjacent) in combination with previous operations.", "anchors": ["src/singly_linked_list.c:ccc_sll_push_front", "src/singly_linked_list.c:ccc_sll_pop_front", "src/singly_linked_list.c:ccc_sll_extract", "src/singly_linked_list.c:ccc_sll_erase"]}
{"id": "C23", "title": "Singly linked list splicing", "statement": "splice and splice_range move exactly the named elements, in order, next to the given position, within one list or between two lists; no element is lost or duplicated, both sizes are adjusted, and both lists remain well formed.", "quantifier": "all pairs of lists, positions and ranges satisfying the documented preconditions", "why_tests_cant": "Aliasing of lists, adjacent positions and range ends gives unbounded combinations.", "anchors": ["src/singly_linked_list.c:ccc_sll_splice", "src/singly_linked_list.c:ccc_sll_splice_range", "src/singly_linked_list.c:ccc_sll_erase_range", "src/singly_linked_list.c:ccc_sll_extract_range"]}
{"id": "C24", "title": "Doubly linked list is a deque of nodes", "statement": "After any sequence of push_front, push_back, insert, pop_front, pop_back, extract and erase, forward traversal gives a mathematical list driven by the same calls, backward traversal gives its reverse, and size is its length.", "quantifier": "all histories", "why_tests_cant": "A wrong back link is only observable through later operations at the affected end.", "anchors": ["src/doubly_linked_list.c:ccc_dll_push_back", "src/doubly_linked_list.c:ccc_dll_push_front", "src/doubly_linked_list.c:ccc_dll_pop_front", "src/doubly_linked_list.c:ccc_dll_pop_back", "src/doubly_linked_list.c:pop_front"]}
{"id": "C25", "title": "Doubly linked list erase returns the successor", "statement": "erase(elem) removes exactly elem and returns the element that followed it (or the end sentinel).", "quantifier": "all lists and positions", "why_tests_cant": "A return value can coincide with the expected one on short lists.", "anchors": ["src/doubly_linked_list.c:ccc_dll_erase", "ccc/doubly_linked_list.h:ccc_dll_erase"]}
{"id": "C26", "title": "Doubly linked list splicing", "statement": "splice moves one element and splice_range moves a run of elements before the given position, within one list or between two, losing and duplicating nothing and adjusting both sizes.", "quantifier": "all pairs of lists, positions and ranges satisfying the documented preconditions", "why_tests_cant": "Aliasing and adjacency give unbounded combinations; the internal length assertion depends on the two list sizes.", "anchors": ["src/doubly_linked_list.c:ccc_dll_splice", "src/doubly_linked_list.c:ccc_dll_splice_range"]}
{"id": "C27", "title": "Priority queue holds the right elements", "statement": "After any sequence of push, pop, extract and erase on the pairing heap the elements in the queue are exactly those pushed and not removed, each reachable once, and size counts them; nothing is lost whatever the shape of the heap.", "quantifier": "all histories, comparison functions that are total preorders, both orders", "why_tests_cant": "The pairing heap's shape is determined by the entire history; lost subtrees are only noticed if drained.", "anchors": ["src/priority_queue.c:ccc_pq_push", "src/priority_queue.c:ccc_pq_pop", "src/priority_queue.c:ccc_pq_erase", "src/priority_queue.c:delete_min", "src/priority_queue.c:merge"]}
{"id": "C28", "title": "Priority queue front is extremal", "statement": "After any such history front is an element no stored element beats, so draining yields a sorted sequence; validate reports true.", "quantifier": "all histories and total preorders", "why_tests_cant": "As above.", "anchors": ["src/priority_queue.c:ccc_pq_front", "src/priority_queue.c:merge", "src/priority_queue.c:delete_min"]}
{"id": "C29", "title": "Changing a priority keeps the queue intact", "statement": "After any sequence of operations that includes increase, decrease and update, the queue still holds exactly the right elements and front is extremal.", "quantifier": "all histories including repeated priority changes of the same element", "why_tests_cant": "Needs a specific sequence of changes to nodes sharing a sibling ring followed by a pop.", "anchors": ["src/priority_queue.c:ccc_pq_increase", "src/priority_queue.c:ccc_pq_decrease", "src/priority_queue.c:ccc_pq_update", "src/priority_queue.c:cut_child"]}
{"id": "C30", "title": "Ordered map (splay) is a finite map", "statement": "After any sequence of insert, try_insert, insert_or_assign, or_insert, insert_entry, remove, remove_entry, get_key_val and contains, a lookup returns the value most recently stored under the key or absence, size counts distinct keys; each call's reported occupancy says whether the key was present before.", "quantifier": "all histories, all key types with a total order", "why_tests_cant": "Every access restructures the tree; the shape depends on the full access history.", "anchors": ["src/ordered_map.c:splay", "src/ordered_map.c:insert", "src/ordered_map.c:erase", "src/ordered_map.c:find", "src/ordered_map.c:ccc_om_remove"]}
{"id": "C31", "title": "Ordered map iteration and ranges", "statement": "begin/next visits all entries in ascending key order exactly once, rbegin/rnext in descending order; equal_range(a,b) yields an iterator pair that delimits exactly the entries with a <= key <= b.", "quantifier": "all trees and range bounds, present or absent", "why_tests_cant": "Successor search walks parent links whose correctness depends on all past rotations.", "anchors": ["src/ordered_map.c:next", "src/ordered_map.c:equal_range", "src/ordered_map.c:min", "src/ordered_map.c:max"]}
{"id": "C32", "title": "Flat ordered map is a finite map", "statement": "The same map claims hold for the array backed splay map; removing an entry may relocate one other entry into the freed slot, and every remaining key still has its value; a failed allocation leaves the map unchanged.", "quantifier": "all histories, slot layouts, keys, allocation outcomes", "why_tests_cant": "Deletion moves the last slot over the erased one and re-links its neighbours by index; errors depend on the relation between the two nodes.", "anchors": ["src/flat_ordered_map.c:splay", "src/flat_ordered_map.c:swap_and_pop", "src/flat_ordered_map.c:remove_from_tree", "src/flat_ordered_map.c:maybe_alloc_insert"]}
{"id": "C33", "title": "Realtime ordered map is a finite map", "statement": "After any sequence of insertions, overwrites, lookups and removals a lookup returns the value most recently stored or absence and size counts distinct keys.", "quantifier": "all histories, all totally ordered key types", "why_tests_cant": "Rebalancing has a dozen cases selected by rank parities built up over the full history.", "anchors": ["src/realtime_ordered_map.c:insert", "src/realtime_ordered_map.c:remove_fixup", "src/realtime_ordered_map.c:find", "src/realtime_ordered_map.c:insert_fixup"]}
{"id": "C34", "title": "Realtime ordered map stays balanced", "statement": "In every reachable map with n entries no search path is longer than 2*log2(n+1), so every lookup, insertion and removal runs in logarithmic time.", "quantifier": "all histories and sizes", "why_tests_cant": "A worst case depth bound is a statement about all shapes.", "anchors": ["src/realtime_ordered_map.c:insert_fixup", "src/realtime_ordered_map.c:rebalance_3_child", "src/realtime_ordered_map.c:rotate", "src/realtime_ordered_map.c:double_rotate"]}
{"id": "C35", "title": "Realtime ordered map iteration and ranges", "statement": "begin/next is ascending, rbegin/rnext descending, each visiting every entry exactly once; equal_range(a,b) delimits exactly the entries with a <= key <= b.", "quantifier": "all maps and bounds", "why_tests_cant": "Successor search uses parent links maintained by every rotation.", "anchors": ["src/realtime_ordered_map.c:next", "src/realtime_ordered_map.c:equal_range", "src/realtime_ordered_map.c:min_max_from"]}
{"id": "C36", "title": "Flat realtime ordered map is a balanced finite map", "statement": "The map and balance claims hold for the array backed version, including after removal relocates the last slot; rank parity of the relocated entry is preserved.", "quantifier": "all histories and layouts", "why_tests_cant": "Relocation composed with rebalancing.", "anchors": ["src/flat_realtime_ordered_map.c:insert_fixup", "src/flat_realtime_ordered_map.c:remove_fixup", "src/flat_realtime_ordered_map.c:swap_and_pop"]}
{"id": "C37", "title": "Ordered multimap keeps duplicates in arrival order", "statement": "After any sequence of insertions and removals, the entries stored under each key are those inserted and not removed, and pop_max, pop_min, remove and iteration serve equal keys first in first out.", "quantifier": "all histories and all numbers of duplicates", "why_tests_cant": "The duplicate ring, its head and the tree node that fronts it are re-linked differently for one, two and more duplicates, at every tree position.", "anchors": ["src/ordered_multimap.c:multimap_insert", "src/ordered_multimap.c:add_duplicate", "src/ordered_multimap.c:multimap_erase", "src/ordered_multimap.c:pop_front_dup"]}
{"id": "C38", "title": "Ordered multimap as a double ended priority queue", "statement": "Draining with pop_max yields a non-increasing key sequence and with pop_min a non-decreasing one, each entry once, whatever history built the map; max and min report absence on an empty map.", "quantifier": "all histories", "why_tests_cant": "Depends on the tree shape and duplicate layout at every step.", "anchors": ["src/ordered_multimap.c:ccc_omm_pop_max", "src/ordered_multimap.c:ccc_omm_pop_min", "src/ordered_multimap.c:ccc_omm_max", "src/ordered_multimap.c:ccc_omm_min"]}
{"id": "C39", "title": "Emptying and freeing a flat container leaves it usable", "statement": "After clear_and_free the container reports size zero and later operations behave as on a freshly initialised container.", "quantifier": "all states of the flat containers", "why_tests_cant": "Only the combination of a free followed by further use shows it.", "anchors": ["src/flat_ordered_map.c:ccc_fom_clear_and_free", "src/flat_realtime_ordered_map.c:ccc_frm_clear_and_free", "src/flat_priority_queue.c:ccc_fpq_clear_and_free", "src/flat_hash_map.c:ccc_fhm_clear_and_free", "src/flat_double_ended_queue.c:ccc_fdeq_clear_and_free"]}
{"id": "C40", "title": "Range insertion into a double ended queue", "statement": "insert_range(pos, n, elems) places the n elements, in order, before the element at pos, keeps the order of all others, drops elements only when a fixed ring overflows, and returns the position of the first inserted element; with an allocating deque it may grow first.", "quantifier": "all contents, positions, range lengths, ring offsets and capacities", "why_tests_cant": "Moving the tail of a ring has several wrap cases; which one applies depends on offset, size, position and length jointly.", "anchors": ["src/flat_double_ended_queue.c:ccc_fdeq_insert_range", "src/flat_double_ended_queue.c:push_range", "ccc/flat_double_ended_queue.h:ccc_fdeq_insert_range"]}
{"id": "C41", "title": "Copying a flat container", "statement": "copy(dst, src, fn) either reports OK and dst then has the contents of src (same lookups, same order), for every internal layout of src and every destination capacity, or reports an error and dst is unchanged.", "quantifier": "all source and destination states, all allocation outcomes", "why_tests_cant": "The source layout (ring offset, probe positions, free slots) and the capacity relation vary independently.", "anchors": ["src/flat_double_ended_queue.c:ccc_fdeq_copy", "src/flat_priority_queue.c:ccc_fpq_copy", "src/flat_hash_map.c:ccc_fhm_copy", "src/flat_ordered_map.c:ccc_fom_copy", "src/flat_realtime_ordered_map.c:ccc_frm_copy"]}
{"id": "C42", "title": "Emplacing into a flat priority queue", "statement": "emplace behaves exactly as push of the same value: same acceptance, same contents and heap order, and a refused emplace returns NULL and leaves the queue as it was.", "quantifier": "all heaps, values, capacities and allocation outcomes", "why_tests_cant": "The two code paths reserve the spare slot at different moments, which only matters at exact capacity boundaries.", "anchors": ["ccc/impl/impl_flat_priority_queue.h:ccc_impl_fpq_emplace", "src/flat_priority_queue.c:ccc_fpq_push"]}
{"id": "C43", "title": "Singly linked list ranges and positions as documented", "statement": "erase_range(begin, end) and extract_range(begin, end) remove the elements from begin up to but not including end and return the element after the range; splice and splice_range place the moved elements before the given position.", "quantifier": "all lists, positions and ranges in them", "why_tests_cant": "Whether an end point is included shows only when a caller relies on the written contract; the tests were written against the code.", "anchors": ["src/singly_linked_list.c:ccc_sll_erase_range", "src/singly_linked_list.c:ccc_sll_extract_range", "src/singly_linked_list.c:ccc_sll_splice", "ccc/singly_linked_list.h"]}
{"id": "C44", "title": "Clearing an intrusive container destroys each element once", "statement": "clear on a linked list, priority queue or tree map leaves it empty with size zero, calls the destructor (if given) exactly once on every stored element while its data is still readable, and frees every element exactly once if the container allocates.", "quantifier": "all contents and shapes, with and without destructor and allocator", "why_tests_cant": "A double or missed destructor call depends on the shape of the links when clear starts.", "anchors": ["src/singly_linked_list.c:ccc_sll_clear", "src/doubly_linked_list.c:ccc_dll_clear", "src/priority_queue.c:ccc_pq_clear", "src/ordered_map.c:ccc_om_clear", "src/realtime_ordered_map.c:ccc_rom_clear", "src/ordered_multimap.c:ccc_omm_clear"]}
{"id": "C45", "title": "The verdict of validate on ordered maps", "statement": "validate of an ordered map or multimap answers in finite time whatever the links, keys and size have become. If the answer is true then the size is the number of elements, walks in both directions show these elements in (reverse) key order, every one is found by its key, and later calls behave as on a map built by calls.", "quantifier": "all memory contents in which links lead to elements, the sentinel or, for branches, NULL", "why_tests_cant": "A test can spoil a map in a few ways; that no spoilt map passes, and that none makes validate run on, is a statement about all of them.", "anchors": ["src/ordered_map.c:ccc_tree_validate", "src/realtime_ordered_map.c:ccc_rom_validate", "src/flat_ordered_map.c:ccc_fom_validate", "src/flat_realtime_ordered_map.c:ccc_frm_validate", "src/ordered_multimap.c:ccc_omm_validate"]}
{"id": "C46", "title": "The verdict of validate on the hash map", "statement": "validate of the hash map answers whatever the stored hashes, elements and size have become. If the answer is true then the size is the number of elements, every element is found by its key, and later calls behave as on a map built by calls.", "quantifier": "all tables whose slots were written", "why_tests_cant": "A damaged table that passes is one nobody thought of testing; the statement is about all of them.", "anchors": ["src/flat_hash_map.c:ccc_fhm_validate"]}
{"id": "C47", "title": "The verdict of validate on lists and queues", "statement": "validate of a linked list, double ended queue or priority queue answers in finite time whatever links, front, data and size have become. If the answer is true then traversals in both directions, front and size agree with the stored elements, and later calls behave as on a container built by calls.", "quantifier": "all memory contents in which links lead to elements, the own sentinel or NULL", "why_tests_cant": "A test can spoil a container in a few ways; the verdict must be right for all ways.", "anchors": ["src/singly_linked_list.c:ccc_sll_validate", "src/doubly_linked_list.c:ccc_dll_validate", "src/flat_double_ended_queue.c:ccc_fdeq_validate", "src/flat_priority_queue.c:ccc_fpq_validate", "src/priority_queue.c:ccc_pq_validate"]}
{"id": "C48", "title": "Amortised cost of the ordered map", "statement": "Starting from an empty ordered map, any sequence of m calls turns the splay loop at most m * (10 + 15 * ceil(lg(n+1))) times altogether, n being the largest number of elements reached; no other loop of these calls runs a number of times that depends on the size; and searching again for the key searched last costs no turn.", "quantifier": "all comparison functions, sequences of calls, keys and allocation outcomes", "why_tests_cant": "Amortised bounds speak about every sequence of calls; a test measures some, and a lost rotation keeps all answers right.", "anchors": ["src/ordered_map.c:splay", "src/ordered_map.c:find", "src/ordered_map.c:insert", "src/ordered_map.c:erase", "ccc/ordered_map.h:32"]}
{"id": "C49", "title": "Cost of walking the ordered map", "statement": "begin and rbegin are amortised O(lg N), next and rnext are O(1), and the ranges are amortised O(lg N). A walk over the whole map from begin or rbegin follows at most two links per element.", "quantifier": "all histories that lead to the map, both directions", "why_tests_cant": "The tests look at which element is visited, not at the links followed; the bad shapes need particular histories.", "anchors": ["src/ordered_map.c:ccc_om_begin", "src/ordered_map.c:ccc_om_next", "src/ordered_map.c:next", "ccc/ordered_map.h:519", "ccc/ordered_map.h:531"]}
{"id": "C50", "title": "Comparisons made by the flat priority queue", "statement": "With n elements stored, push and emplace make at most lg(n+1) comparisons, pop at most 2 lg(n-1), erase at most 1 + 2 lg(n-1), update, increase and decrease at most 1 + 2 lg n, and heapify of an array of n elements at most 2n; front, size and clear make none. The bounds hold in every call after every history, whatever the comparison function answers.", "quantifier": "all comparison functions, heaps, elements and sequences of calls", "why_tests_cant": "Tests check the order of the results, not the number of steps; a heapify that does n lg n comparisons passes every one of them.", "anchors": ["src/flat_priority_queue.c:bubble_up", "src/flat_priority_queue.c:bubble_down", "src/flat_priority_queue.c:ccc_fpq_heapify", "src/flat_priority_queue.c:ccc_fpq_push", "src/flat_priority_queue.c:ccc_fpq_pop", "src/flat_priority_queue.c:ccc_fpq_erase", "src/flat_priority_queue.c:ccc_fpq_update", "ccc/flat_priority_queue.h:ccc_fpq_heapify"]}
{"id": "C51", "title": "Comparisons made by the priority queue", "statement": "With n elements stored, push and emplace make at most one comparison, and so do increase in a queue with the largest element in front and decrease in one with the smallest. Over any sequence of calls starting from an empty queue the comparisons made add up to no more than the shares 1 + lg(n+1) for push and emplace, 2 + 3 lg n for pop, extract and erase, 4 + 4 lg n for update, increase and decrease, n (2 + 3 lg n) for clear and nothing for the others, with lg rounded up; that is 6 + 7 lg m per call on average if no more than m elements are ever stored.", "quantifier": "all comparison functions and all histories except those that raise a second time the element that a raise put in front, which the queue does not survive (C29), and pushes on an allocating queue (C27)", "why_tests_cant": "Amortised bounds speak about every sequence of calls; a pop that merges the children one by one gives the same answers and passes every test.", "anchors": ["src/priority_queue.c:merge", "src/priority_queue.c:delete_min", "src/priority_queue.c:delete_node", "src/priority_queue.c:cut_child", "src/priority_queue.c:ccc_pq_push", "src/priority_queue.c:ccc_pq_pop", "src/priority_queue.c:ccc_pq_erase", "src/priority_queue.c:ccc_pq_update", "ccc/priority_queue.h:5", "ccc/priority_queue.h:95"]}
{"id": "C52", "title": "Cost of searching and walking the realtime ordered maps", "statement": "With n elements stored, a search in a realtime ordered map or its flat variant makes at most 2 lg(n+1) comparisons, equal_range and equal_rrange at most twice as many and follow at most 4 lg(n+1) links, begin and rbegin follow at most 2 lg(n+1) links, next and rnext are O(1), and a walk over the whole map follows at most two links per element.", "quantifier": "all comparison functions, all histories that lead to the map, both directions, all keys and ranges", "why_tests_cant": "A map that lost its balance gives the same answers; a test sees a few shapes, the bound is about all a history can build.", "anchors": ["src/realtime_ordered_map.c:find", "src/realtime_ordered_map.c:next", "src/realtime_ordered_map.c:equal_range", "src/flat_realtime_ordered_map.c:find", "src/flat_realtime_ordered_map.c:next", "ccc/realtime_ordered_map.h:5", "ccc/realtime_ordered_map.h:564", "ccc/flat_realtime_ordered_map.h:36", "ccc/flat_realtime_ordered_map.h:643"]}
{"id": "C53", "title": "Amortised cost of the flat ordered map", "statement": "Starting from an empty flat ordered map of any capacity, any sequence of m calls turns the splay loop at most m * (6 + 9 * ceil(lg(n+1))) times altogether, n being the largest number of elements reached; calls other than begin, next, the ranges and their reverse follow no link outside that loop; and searching again for the key searched last finds it at the root.", "quantifier": "all comparison functions, capacities, sequences of calls, keys and allocation outcomes", "why_tests_cant": "Amortised bounds speak about every sequence of calls; a test measures some, and a lost rotation keeps all answers right.", "anchors": ["src/flat_ordered_map.c:splay", "src/flat_ordered_map.c:find", "src/flat_ordered_map.c:insert", "src/flat_ordered_map.c:erase", "ccc/flat_ordered_map.h:11", "ccc/flat_ordered_map.h:42"]}
{"id": "C54", "title": "Cost of walking the flat ordered map", "statement": "begin and rbegin are amortised O(lg N), next and rnext are O(1), and the ranges are amortised O(lg N). A walk over the whole map from begin or rbegin follows at most two links per element.", "quantifier": "all histories that lead to the map, both directions", "why_tests_cant": "The tests look at which element is visited, not at the links followed; the bad shapes need particular histories.", "anchors": ["src/flat_ordered_map.c:ccc_fom_begin", "src/flat_ordered_map.c:ccc_fom_next", "src/flat_ordered_map.c:next", "ccc/flat_ordered_map.h:523", "ccc/flat_ordered_map.h:599", "ccc/flat_ordered_map.h:610"]}
{"id": "C55", "title": "Amortised cost of the ordered multimap", "statement": "Starting from an empty ordered multimap, any sequence of m calls turns the splay loop at most m * (10 + 15 * ceil(lg(n+1))) times altogether, n being the largest number of different keys reached, however many duplicates there are; clear is counted with the calls that brought its elements. Calls other than begin, next, the ranges and their reverse follow no link outside that loop.", "quantifier": "all comparison functions, sequences of calls, keys, numbers of duplicates and allocation outcomes", "why_tests_cant": "Amortised bounds speak about every sequence of calls; a test measures some, and a lost rotation or a search along the duplicates keeps all answers right.", "anchors": ["src/ordered_multimap.c:splay", "src/ordered_multimap.c:find", "src/ordered_multimap.c:multimap_insert", "src/ordered_multimap.c:multimap_erase", "src/ordered_multimap.c:multimap_erase_node", "src/ordered_multimap.c:remove_from_tree", "ccc/ordered_multimap.h:13"]}
{"id": "C56", "title": "Constant time at the ends and entries of the ordered multimap", "statement": "After max or min of an ordered multimap, popping that end costs O(1), and as long as elements with that key remain so does every further pop, search and insertion of that key. extract, and insert_entry, or_insert and remove_entry on an entry just obtained, are O(1).", "quantifier": "all comparison functions, maps with any history, numbers of duplicates and sequences of calls at one end", "why_tests_cant": "The tests see the elements that come out, not the turns of the splay loop; a pop that searches again gives the same answers.", "anchors": ["src/ordered_multimap.c:ccc_omm_max", "src/ordered_multimap.c:ccc_omm_min", "src/ordered_multimap.c:ccc_omm_pop_max", "src/ordered_multimap.c:ccc_omm_pop_min", "src/ordered_multimap.c:ccc_omm_extract", "src/ordered_multimap.c:ccc_omm_remove_entry", "src/ordered_multimap.c:ccc_omm_insert_entry", "src/ordered_multimap.c:ccc_omm_or_insert", "ccc/ordered_multimap.h:306", "ccc/ordered_multimap.h:452", "ccc/ordered_multimap.h:476"]}
{"id": "C57", "title": "Requests for memory in 64 bits", "statement": "Whatever is pushed, reserved and resized, the containers over a buffer ask the allocator for exactly capacity times element size bytes although size_t wraps, their memory always holds as many elements as their capacity says, and every slot handed out lies inside it. The sizes are those computed with unbounded numbers.", "quantifier": "all element sizes, histories of calls on buffer, flat deque, flat priority queue, hash map and flat ordered maps, and allocators that grant at most 2^60 bytes", "why_tests_cant": "No test can allocate the amounts at which size_t wraps, and a test with small sizes cannot tell wrapped from exact arithmetic.", "anchors": ["src/buffer.c:ccc_buf_alloc", "src/buffer.c:ccc_buf_alloc_back", "src/buffer.c:ccc_buf_size_plus", "src/flat_double_ended_queue.c:maybe_resize", "src/flat_priority_queue.c:ccc_fpq_push", "src/flat_priority_queue.c:ccc_fpq_heapify", "src/flat_hash_map.c:maybe_resize", "src/flat_ordered_map.c:alloc_back", "src/flat_realtime_ordered_map.c:alloc_back"]}
{"id": "C58", "title": "Amortised cost of the double ended queue", "statement": "Pushes and pops at either end of a double ended queue are amortised O(1) although it grows: over any history the elements written, by the pushes and by moving to new memory, are at most three per element pushed. A queue that may not grow writes only what it is given.", "quantifier": "all capacities, all histories of pushes and pops of elements and ranges at both ends, with memory granted or refused at every growth", "why_tests_cant": "A test sees the elements, not how often they were copied; a queue that grows by a constant passes every test.", "anchors": ["src/flat_double_ended_queue.c:maybe_resize", "src/flat_double_ended_queue.c:alloc_front", "src/flat_double_ended_queue.c:alloc_back", "src/flat_double_ended_queue.c:push_back_range", "src/flat_double_ended_queue.c:push_front_range", "ccc/flat_double_ended_queue.h:10", "ccc/flat_double_ended_queue.h:128", "ccc/flat_double_ended_queue.h:150"]}
{"id": "C59", "title": "Amortised cost of resizing the hash map", "statement": "The work of resizing a hash map is amortised O(1) per call: over any history the slots cleared and scanned are bounded by a constant for each call that may add an element, besides the table it began with. Clear without a destructor is O(1).", "quantifier": "all hash functions, capacities and histories of calls, with memory granted or refused at every growth", "why_tests_cant": "A test sees the entries, not how many slots were touched; growth by a constant or a table cleared at every call gives the same answers.", "anchors": ["src/flat_hash_map.c:maybe_resize", "src/flat_hash_map.c:next_prime", "src/flat_hash_map.c:ccc_fhm_clear", "ccc/flat_hash_map.h:5", "ccc/flat_hash_map.h:549"]}
{"id": "C60", "title": "Amortised cost of growth in the array containers", "statement": "The growth of the buffer, the flat priority queue and the two flat ordered maps is amortised O(1) per element, so that it does not spoil their O(lg N) insertions: over any history the slots that reallocation has to move are at most two for every element pushed, passed to heapify or offered for insertion, and for every slot reserved. A container that may not allocate moves none.", "quantifier": "all element types, orders, capacities and histories of calls, with memory granted or refused at every growth", "why_tests_cant": "A test sees the elements, not how often the memory was reallocated; a container that grows by a constant passes every test.", "anchors": ["src/buffer.c:17-40", "src/buffer.c:61-90", "src/flat_priority_queue.c:34", "src/flat_priority_queue.c:61", "src/flat_ordered_map.c:865", "src/flat_realtime_ordered_map.c:792", "ccc/flat_priority_queue.h:179", "ccc/flat_ordered_map.h:42"]}
{"id": "C61", "title": "String search finds the first and the last occurrence", "statement": "On string views sv_find answers the first position from pos on at which the needle occurs, or the length of the hay; sv_contains tells whether there is one and sv_match is a view of it; sv_rfind and sv_rmatch answer the last occurrence, of those that end at pos or before. No byte outside the two views is read, whatever the length of the needle, and the search ends.", "quantifier": "all views and needles of at least one byte, all positions", "why_tests_cant": "Needles of five bytes and more go through two-way string matching, whose correctness rests on the critical factorization theorem; wrong shifts show up only for particular periodic needles.", "anchors": ["util/str_view.c:681-707", "util/str_view.c:627-679", "util/str_view.c:945-1012", "util/str_view.c:1039-1437", "util/str_view.c:1451-1556", "util/str_view.h:322-352"]}
{"id": "C62", "title": "Comparison of string views", "statement": "sv_cmp and sv_strcmp compare in the order of the dictionary with unsigned bytes, sv_strncmp compares with the first n bytes of the string, and sv_starts_with and sv_ends_with tell whether a text begins or ends with another.", "quantifier": "all views and terminated strings, all n", "why_tests_cant": "The wrong answers of sv_strncmp need particular lengths: a view longer than n that agrees in n bytes, or n beyond the end of equal strings.", "anchors": ["util/str_view.c:278-343", "util/str_view.c:579-605", "util/str_view.h:135-157", "util/str_view.h:219-227", "util/str_view.h:354-366"]}
{"id": "C63", "title": "Searching string views for bytes of a set", "statement": "sv_find_first_of, sv_find_first_not_of, sv_find_last_of and sv_find_last_not_of answer the first or the last position whose byte is in the set or is not, and the length of the hay if there is none.", "quantifier": "all views and sets", "why_tests_cant": "The searches go wrong only where the set is absent, or where the hay ends in the set, or where two bytes outside of it end the hay; the tests of the library leave these out.", "anchors": ["util/str_view.c:709-786", "util/str_view.c:883-943", "util/str_view.h:374-394"]}
{"id": "C64", "title": "Construction and slices of string views", "statement": "sv and sv_n view a terminated string or its first n bytes; sv_substr, sv_remove_prefix and sv_remove_suffix view the part of the text that is asked for, cut to what there is, with no access outside of the array; sv_at, sv_front and sv_back answer its bytes or the terminator; sv_fill copies as much as there is room for and terminates the destination.", "quantifier": "all views, positions, counts and destinations", "why_tests_cant": "Positions at and beyond the end, and empty views, are each a case of their own.", "anchors": ["util/str_view.c:148-166", "util/str_view.c:201-212", "util/str_view.c:248-256", "util/str_view.c:345-363", "util/str_view.c:589-625", "util/str_view.h:104-133", "util/str_view.h:172-177", "util/str_view.h:358-372"]}
{"id": "C65", "title": "Tokens of string views", "statement": "The loop over sv_begin_tok, sv_next_tok and sv_end_tok visits exactly the pieces of the source between delimiters that are not empty, in order and each at its place in the source, and ends; the loop over sv_rbegin_tok, sv_rnext_tok and sv_rend_tok visits those of the source cut from right to left. The views never leave the source.", "quantifier": "all sources and all delimiters of at least one byte, none beginning with the terminator", "why_tests_cant": "Delimiters of several bytes may overlap with themselves and with the tokens; tests use a few separators.", "anchors": ["util/str_view.c:447-563", "util/str_view.c:796-832", "util/str_view.h:229-277"]}
{"id": "C66", "title": "Work of the searches in string views", "statement": "sv_find, sv_contains, sv_match, sv_rfind and sv_rmatch read at most ten bytes for each byte of the needle and four for each byte of the part of hay they search, however much needle and hay repeat themselves: the search for long needles is not quadratic.", "quantifier": "all hays, all needles of at least one byte, all positions", "why_tests_cant": "The worst cases are strings with many periods chosen against the algorithm; the tests have none and do not count.", "anchors": ["util/str_view.c:627-707", "util/str_view.c:945-1131", "util/str_view.c:1136-1220", "util/str_view.c:1259-1437", "util/str_view.c:1451-1556"]}
{"id": "C67", "title": "Work of visiting all tokens", "statement": "The loop over sv_begin_tok, sv_next_tok and sv_end_tok reads at most 17 bytes for each byte of source and delimiter, although every token starts a new search with a new preprocessing of the delimiter.", "quantifier": "all sources and all delimiters of at least one byte that do not begin with the terminator", "why_tests_cant": "The sum over all tokens is amortized against the bytes that are skipped; tests do not count.", "anchors": ["util/str_view.c:447-505", "util/str_view.c:796-811"]}
{"id": "C68", "title": "Walking over string views", "statement": "The loop from sv_begin to sv_end visits the bytes of a view in order and the one from sv_rbegin to sv_rend in reverse order, each once and none outside; sv_pos stops at the end; sv_print writes exactly the bytes; sv_extend reaches the terminator; sv_delim answers the first piece that is not empty; sv_swap exchanges two views; all are safe for NULL.", "quantifier": "all views, strings, delimiters and positions", "why_tests_cant": "Empty views, views in the middle of a string and delimiters at both ends are cases of their own.", "anchors": ["util/str_view.c:168-193", "util/str_view.c:214-276", "util/str_view.c:365-445", "util/str_view.c:565-577"]}
{"id": "C69", "title": "Cost of walking the ordered multimap", "statement": "A walk over all N elements follows O(N) links; begin and rbegin take amortised O(lg N), next and rnext O(1), and a step to an element with the same key follows no link of the tree.", "quantifier": "all maps after any history of permitted calls, both directions", "why_tests_cant": "Cost is not observed by tests of results; bad shapes need particular histories.", "anchors": ["src/ordered_multimap.c:344-390", "src/ordered_multimap.c:667-691", "src/ordered_multimap.c:718-794", "ccc/ordered_multimap.h:636-680"]}
{"id": "C70", "title": "Direction of the walks of the ordered multimap", "statement": "begin gives the oldest minimum and next goes up in key order, rbegin gives the oldest maximum and rnext goes down; equal_range(a,b) begins with the first element not less than a and ends with the first greater than b.", "quantifier": "all maps and bounds", "why_tests_cant": "The project's own tests call the functions in the direction in which they work.", "anchors": ["src/ordered_multimap.c:345-388", "src/ordered_multimap.c:403-426", "src/ordered_multimap.c:796-826", "ccc/ordered_multimap.h:562-680"]}
{"id": "C71", "title": "Entries, ranges, results and their messages", "statement": "occupied, insert_error and input_error of an entry tell whether its status includes that flag, whatever the other flags, and agree with get_entry_status; unwrap gives NULL for a vacant entry or one that cannot be viewed and otherwise the element; NULL is answered as an entry with bad input; result_msg is empty for OK only and otherwise describes the result; entry_status_msg describes the status.", "quantifier": "all pointers, all sets of status flags, all results", "why_tests_cant": "Tests look at the flags of the entries they happen to produce, at no combinations and at no messages.", "anchors": ["src/types.c:7-124", "ccc/types.h:255-352", "ccc/impl/impl_types.h:9-58"]}
