# Formal model of ocnn-pytorch in Rocq (Coq 8.16.1)

This file is the plan, the map of the model and the trusted base. `properties.jsonl` lists the
properties (C01...), `MANIFEST.json` maps each to its theorems (generated by `tools/manifest.py`),
`seeded/LOG.jsonl` records the wrong-program experiments.

## How the model is organised (rocq/theories)

Four kinds of files, kept apart:

* **model** files: one Gallina function per Python function, each with the file and lines it models; no proofs;
* **specification** files (`Spec*.v`, `WF.v`, `Num.v`): the vocabulary of the property statements; no proofs and (except
  where a property is about the state of the model) no reference to the model's helpers;
* **proof** files (`*Facts.v`, `*Thms.v`, ...);
* **property** files `P_*.v`: statement, `exact lemma`, `Print Assumptions`, and an `Example` that a concrete
  non-trivial state meets the hypotheses (example data in `*Examples.v`).

| model file | code in /repo | properties | property file |
|------|------|------|------|
| `Res.v`, `Tensor.v`, `Num.v` | exceptions as values; the torch primitives used (indexing, masks, unique, bucketize, scatter, cumsum); exact rationals | all | |
| `Key.v` | `ocnn/octree/shuffled_key.py` (loop and table encoders, per-device table cache) | C01-C06 | `P_Key` |
| `Octree.v` | `ocnn/octree/octree.py` | C07-C27, C29-C32, C72, C81 | `P_Search`, `P_Build`, `P_Neigh`, `P_Grow`, `P_Merge`, `P_Device` |
| `Heap.v`, `Device.v` | the queries of `octree.py` and `Octree.to` with explicit tensor storage (views, copies, in-place writes) | C28, C81 | `P_Heap`, `P_Device` |
| `Points.v`, `PointsOps.v` | `ocnn/octree/points.py` | C58-C66, C31 | `P_Points`, `P_Merge` |
| `PointsHeap.v` | `ocnn/octree/points.py` with explicit tensors: which calls write in place and which make new tensors | C92 | `P_PointsHeap` |
| `NnBasic.v` | `ocnn/nn/octree_pad.py`, `octree2col.py`, `octree_pool.py`, `octree2vox.py`, `octree_drop.py` | C33, C34, C42-C47, C49, C50 | `P_Conv`, `P_Pool` |
| `NnConv.v` | `ocnn/nn/octree_conv.py`, `octree_dwconv.py`, `octree_gconv.py` | C35-C41 | `P_Conv` |
| `NnNorm.v` | `ocnn/nn/octree_norm.py` | C48 | `P_Pool` |
| `NnInterp.v` | `ocnn/nn/octree_interp.py`, `octree_align.py` | C51-C57 | `P_Interp` |
| `Features.v` | `Octree.get_input_feature`, `ocnn/modules.InputFeature` | C15, C71 | `P_Feature` |
| `Utils.v` | `ocnn/utils.py`, the shared kernel-size lists of the layer constructors | C69, C74, C76 | `P_Utils` |
| `Dataset.v` | `ocnn/dataset.py` (`Transform`, `CollateBatch`) | C70, C77, C78 | `P_Dataset` |
| `Net.v` | `ocnn/modules/modules.py`, `resblocks.py`; `ocnn/models/lenet.py`, `resnet.py`, `segnet.py`, `unet.py`, `hrnet.py`, `autoencoder.py` | C67, C68, C73, C79, C80, C82 | `P_Net`, `P_Batch`, `P_Decode` |
| `Project.v` | `projects/segmentation.py` (metrics, evaluation), `projects/autoencoder.py` (`octree2pts`), `projects/tools/seg_scannet.py` (label tables, chunks, merging), `projects/datascts/semantic_kitti.py` (label map) | C83-C88 | `P_Project` |
| `Random.v` | `ocnn/dataset.py` (`rnd_parameters`) | C89 | `P_Random` |
| `Shape.v` | `ocnn/models/image2shape.py` (encoder arbitrary), `projects/autoencoder.py` (`compute_loss`) | C90, C91 | `P_Shape` |
| `Prep.v` | `projects/datascts/`: the transforms of `semantic_kitti.py`, `seg_shapenet.py`, `ae_shapenet.py`, `completion.py`, `scannet.py` (with `color_distort`, `elastic_distort`; random numbers are arguments) | C93-C95 | `P_Prep` |
| `Ounet.v` | `ocnn/models/ounet.py` (argument binding of the constructor; encoder with the missing method as a parameter, decoder, init_octree, forward), `projects/completion.py` (`get_model`) | C96 | `P_Ounet` |
| `Tools.v` | projects/tools: cleanup_ckpt.py (whole script), cls_modelnet.py (extraction, _clean_off_file and its loop), seg_scannet.py (process_scannet), as sequences of atomic steps on files | the contents computed for a scene are given; a write is two steps (truncated, complete); folders do not change during a run; the download and the sampling of meshes |
| `Scannet.v` | projects/tools/seg_scannet.py: calc_iou, generate_point_labels200, face_normal, vertex_normal, align_to_axis (the transformation) | exact numbers; reading of PLY, JSON, CSV and the text of the alignment; files with a single point |
| `Solver.v` | `projects/segmentation.py`, `projects/classification.py`: process_batch, model_forward, the train and test steps on dictionaries of a batch | C103-C105 | `P_Solver` |
| `Files.v` | `Points.save` (`ocnn/octree/points.py`), `projects/tools/utils.py` (save_points_to_ply), `projects/datascts/utils.py` (ReadPly, ReadNpz, ReadFile), `modelnet40.py` (read_file), `projects/tools/seg_shapenet.py` (txt_to_ply, tables); files as numbers, not bytes | C106, C107 | `P_Files` |
| `Filelist.v` | the file lists of `projects/tools`: `cls_modelnet.py` (get_filelist), `image2shape.py` (create_filelist), `seg_kitti.py` (generate_file_list), `seg_shapenet.py` (generate_filelist) | C108, C109 | `P_Filelist` |
| `Octree.v` (build) | octrees of different depth and clouds occupying the same cells | C111 | `P_Structure` |
| `Ckpt.v` | tools/upgrade_ckpt.py, tools/parse_ckpt.py, file names in datascts/image2shape.py; printing is a list of rows | C113, C114 | `P_Ckpt` |
| (no new model) | HRNet, SegNet, recorded max pooling and unpooling, upsampling, on moved shapes | C115 | `P_MoveHr` |
| `SpecTrain.v` | torch.nn.BatchNorm1d in training mode, as used in modules/modules.py | C116 | `P_Train` |
| `SpecShuffle.v` | merge_octrees and the networks on the same samples in another order | C117 | `P_Shuffle` |
| `P_Grad` | backward passes on merged octrees | C118 | `P_Grad` |
| `SpecMove.v` | backward passes on moved octrees | C119 | `P_Grad` |
| `Bench.v` | `projects/scripts/run_seg_shapenet.py`: tables, commands, order of runs, reading of logs, means | C120 | `P_Bench` |
| `FloatMean.v` | the averages of `build_octree` and the coordinates of `get_input_feature` in IEEE binary32 | C122 | `P_FloatMean` |
| `SpecState.v` | the tensors that the constructors of the networks register | C123 | `P_State` |
| `SpecResid.v` | (specification only) silent branches, positive parts, bounded entries | C124, C125 | `P_State` |
| `BuildFloat.v` | the tree of `build_octree`, `search_xyzb` and nearest interpolation in IEEE binary32 | C126 | `P_Nudge` |
| `SpecHead.v` | what a change of the last layer does to the logits | C127 | `P_Head` |
| `LinearFloat.v` | the matrix of linear interpolation in IEEE binary32 | C128 | `P_LinearFloat` |
| (`LinearFloat.v`) | the matrix of linear upsampling in IEEE binary32 | C129 | `P_UpsampleFloat` |
| (`LinearFloat.v`, `BuildFloat.v`) | the same functions at positions that are not rescaled | C130 | `P_RawFloat` |
| `ClipFloat.v` | clip in IEEE binary32, with NaN and infinities | C131 | `P_ClipFloat` |
| `NormFloat.v` | normalize and bbox in IEEE binary32 | C132 | `P_NormFloat` |
| (`NormFloat.v`, `BuildFloat.v`) | bbox, normalize, build_octree and the search one after the other | C133 | `P_NormBuild` |
| `FlipFloat.v` | flip in IEEE binary32 | C134 | `P_FlipFloat` |
| `OrientFloat.v` | orient_normal in IEEE binary32 | C135 | `P_OrientFloat` |
| `TranslateFloat.v` | translate in IEEE binary32 | C136 | `P_TranslateFloat` |
| `Float32.v` | the coordinate computation of `build_octree` and `xyz2key` in IEEE binary32 (Flocq) | C75 | `P_Float` |

Conventions.
* Tensors are lists; an integer tensor is `list Z`, a feature tensor is a list of rows. Every operation that can raise
  returns `res`; a theorem that says `= Ok ...` therefore also says "does not raise".
* int64 keys: `Z` with explicit 64-bit wrap on left shifts (`shl64`). `&`, `|`, `>>`, `%` on `Z` agree with two's
  complement exactly.
* Floating point: features, coordinates and weights are exact rationals (`Qc`, canonical rationals, axiom free, executable)
  or, where `sqrt`, `sin`, `cos` occur, Coq's reals `R`. Rounding is modelled in C75, C122, C126, C128, C129, C130, C131, C132, C133, C134, C135 and C136 only.
* int32 counters and child indices are unbounded integers (valid below 2^31 nodes).
* Normalisation layers of networks are arbitrary functions of the rows (with a hypothesis that they keep shapes, or, for
  evaluation mode, that they treat every row on its own); weights are arbitrary.

## Not modelled

* Autograd (backward passes are modelled where the code writes them by hand: `OctreeConvFunction`, `OctreeDeconvFunction`,
  `OctreeDWConvFunction`), CUDA kernels (`dwconv`'s C++ extension), dtype conversions, memory, mixed precision.
* Rounding errors of floating-point arithmetic outside C75, C122, C126, C128 and C129.
* Values of `sin`, `cos` in `Dataset.v` (an arbitrary matrix; C60 covers rotations).
* Bytes of files (outside `Tools.v`, `Files.v`, `Filelist.v`, where files are their contents or numbers), logging, the optimiser and the
  outer training loops (the steps are in `Solver.v`), `ocnn/dataset.py:Dataset` I/O; in `Project.v` files are functions from names to contents, softmax and `F.normalize` arbitrary functions of a row.
* The 2-D convolutional encoder of `ocnn/models/image2shape.py` (an arbitrary function of the images) and
  the input features of `ocnn/models/ounet.py` (a missing method, see findings).

## Plan and method per property

* C01-C05: both encoders bit for bit; every key characterised by its bits (`Z.bits_inj`), arithmetic recursion
  `morton (S d) = 8*morton d + octant`.
* C06: state machine of the per-device table cache, invariant by induction over requests.
* C07, C08: `bucketize` as the left insertion point; sorted keys give exactness; C08 refuted outside the range by a witness.
* C09-C18: `build_octree` loop by loop with `unique`, `unique_consecutive`, index writes and scatter; loop invariant: current
  node list = sorted distinct ancestors; C16 by uniqueness of sorted lists; C18 by showing both sides equal.
* C19-C22: `octree_split`/`octree_grow`/`init_octree`; invariant by induction over the growth history.
* C23-C27, C32, C72: neighbour relation stated geometrically in `SpecNeigh.v`; induction over depth; 8x27 tables by finite computation.
* C28: heap model with views and copies; induction over call histories.
* C29-C31: concatenation lemmas.
* C33-C41, C50: convolution as written (chunk loop, buffer split, gather, gemm) against a direct sum; adjointness by exchanging
  finite sums; dense equality from C23 + C50.
* C42-C49, C51-C57: pooling, normalisation, drop path, voxelisation, interpolation, alignment over `Qc` (`option Qc` for -inf; `R` for group norm).
* C58-C66: `Points` as a record of optional attribute lists; operation sequences by induction; geometry over `R`.
* C67, C68, C73: symbolic execution of the networks with shape relations; loops by induction on the stage.
* C69, C74, C76: constructor histories by induction; `scatter_add` over any commutative monoid.
* C70, C77, C78: the data pipeline composed with the build and merge theorems.
* C71, C15: layout of the input features.
* C75: Flocq rounding of `(p+1)*2^(d-1)`, monotonicity of rounding.
* C79: simulation relation between the runs on the members and the run on the merged octree (rows = concatenated rows), one lemma
  per layer, loops by induction; C80: witness of failure, and the guarded claim
  when every sample asks for a split at every depth (`DecodeBatch.v`).
* C81: value-level equalities and freshness of the copied storages.
* C82: lock-step induction over the depths of the half-grown and the complete octree
  (`Decode.v`): same rows, same neighbours up to the current depth.
* C83: counting lemmas on lists (intersections, unions), averages of batches as totals, invariance under permutation.
* C84, C86: the dictionary of accumulated rows holds the votes of the samples seen so far; induction over samples and batches.
* C85: rows of the finest depth filtered by batch index; algebra over `Qc`; composed with the decoding theorem C73.
* C87: minimum and maximum by fold invariants; choice of the grid box by the ceiling; witness for negative coordinates.
* C88: finite tables by computation, lifted to all label lists.
* C89: the generators are arbitrary functions into their documented ranges; bounds by linear arithmetic.
* C90: the decoding theorem C73 on the rows cut out of the encoder's output.
* C91: means and counts over `Qc`; a sum of squares is zero only if all are; accuracy 1 gives the hypothesis of the fixpoint theorem C82.
* C92: refinement of the heap model by the value model of C58-C66 under the invariant that no tensor is referred to twice; frame lemmas for the rest.
* C93: the theorem on `Transform` (C77) for a dictionary that already holds a cloud; bounding boxes by folds; a sorted list of all indices keeps everything.
* C94: colours scaled by 255 and back; per channel, with the clamp as a relation.
* C95: the grid coordinate of a point lies between 1 and the number of cells; the eight weighted corners are nested linear interpolations; averages and interpolations keep bounds.
* C96: binding of positional and keyword arguments as a total function, whose only error is TypeError; the decoder by the invariant of C73, with the alignment theorem C57 for the skip connections; growing by the invariant of C73 and replay by the lockstep argument of C82 (`OunetGrow.v`); argument binding against `SpecOunet.v`.
- **C97** (`Tools.v`, spec `SpecTools.v`): every state a run goes through is listed by `trace`; the invariant says which file of a folder will be kept and is preserved by each deletion.
- **C98** (`Tools.v`): invariant over the states of a run (an output is absent, in part, or complete together with its labels).
- **C99** (`Tools.v`): the same state space; the repair is idempotent, which makes repeated runs harmless except inside a write.
- **C100** (`Scannet.v`, spec `SpecScannet.v`): the state of the loop is the counts over the labelled points so far (induction over the files).
- **C101** (`Scannet.v`): the loop over the groups is read off point by point; last writer wins.
- **C102** (`Scannet.v`): the lengths cancel in normal times area, so the accumulated vector is half the sum of the cross products; equivariance from the cofactor identity of rotations. Real numbers, so the axioms of Coq.Reals.
- **C103**: model process_batch/model_forward on dictionaries; builds commute with moves (layers of a built octree are determined by the cloud), then C18, C81.
- **C104**: the step on a list of clouds equals the concatenation of per-cloud computations (C14 signals, C79 networks, masks and labels row-wise); applied to the list and to each singleton.
- **C105**: one row per sample (C67, C79), mean of one number, sums of per-row values.
- **C106**: model the loop over the letters, the dictionary of arrays, the concatenation of columns and the formatting with six decimals; prove by induction over the letters which columns are taken, that repeated names collapse, and that reading inverts saving.
- **C107**: model the structured array by its column types and rows, the reader by column look-up; prove for each of the eight combinations of optional arrays that each column is found where it was put; the table of displacements is compared with the prefix sums of the part counts.
- **C108**: model folders as lists of names in any order and the lists as lists of lines; prove that sorting makes the result a function of the set of names, and bound the rounded products by monotonicity.
- **C109**: model the substring test and the slice line[11:]; prove the lists equal to the filter by category.
- **C110**: `SpecMove.v` defines motions of the grid (translation per sample by cells of layer e, mirror image, exchange of axes, composition), moved octrees, carried features and turned kernels. Convolution uses the dense reading of C36, pooling that of C42 and C47; ResNet by a relational run of both networks; clouds by C12, C10, C14 and C71.
- **C111**: a well-formed octree is determined by full depth, batch size and its non-empty cells (induction over layers: equal keys, then equal masks because keys are distinct); the non-empty cells are those with a point (C12), and a cell has a point iff a cell below it has one.
- **C112**: `SpecMoveSeg` adds motions that keep first children and moved query points. Stride 2: a child table of a cell is a box around its first child, so the proof of C110 applies. Transposed convolution: through the adjoint equation (C38) tested with unit vectors. Interpolation: the eight cells around a moved point are the moved cells. UNet: a relation between the dictionaries of the two runs, by induction over the stages.
- **C113**: str.replace is specified by an inductive relation (first occurrence, then the rest) which has exactly one result; entry by entry; induction over the dictionary.
- **C114**: an occurrence of the folder name cannot straddle a slash, so the first one is the folder itself; then C113's characterisation of replace.
- **C115**: the number of a child is the parity of its coordinates, which a move by cells of a coarser layer keeps; then, as in C110 and C112, each layer of the nets preserves the relation 'carried', by induction over stages and branches; the last step (global pooling, or interpolation at points) forgets the order.
- **C116**: the rows of the moved layer are a permutation of the rows of the layer; mean and variance are sums over the rows, so they agree, and the normalisation acts row by row; everything else as in C110, C112 and C115, whose proofs are given for this weaker hypothesis on the normalisation.
- **C117**: renumbering the samples is a motion of the grid that moves no coordinate; the cells of the merged octree are the cells of the members with the member's number (C29), so the cells of the reordered batch are the moved cells, and rows of joined tensors follow blocks; then the theorems of C116 for motions that renumber samples.
- **C118**: the forward pass of a batch is the forward passes of the members side by side (C79); the gradient is determined by the inner-product identity of C37, so it is the joined data gradients and the summed weight gradients (`GradFacts.grad_members`).
- **C119**: the forward pass commutes with the motion (C110); the gradient is determined by the inner-product identity of C37, and inner products do not change when rows and taps are permuted (`GradMove.grad_moved`).  Stride 2 (`GradMove2.v`) uses one permutation for the rows of the fine layer and another for those of the coarse layer, and C112 for the forward pass.
- **C120**: log folders of different categories, and of ratios printed differently, differ; induction over the runs shows which line each log ends with at the end; the reader's position in the line is the first mention of the metric (`BenchFacts.outer_loop`, `read_shown`).
- **C121**: sums over the nodes of two octrees are equal if the terms vanish off a zone on which they agree (`LocalFacts.sum_near`); convolutions through their dense form, transposed convolutions through the adjoint property with unit tensors (`local_conv`, `local_deconv`); the radii add up along encoder and decoder (`LocalUnet.W_backbone`); clouds through the occupied cells and the rows tagged with a node (`LocalScene.local_feature`).
- **C122**: sums of numbers of [k, k+1] stay between multiples of k and k+1 because these are representable; that they stay below n(k+1) follows from the distance of an integer to the next smaller number (`FloatMeanFacts.gap`, `sum_below`, `favg_slab`); errors by half a unit in the last place per addition (`sum_error`).
- **C123**: two parameter sets that agree on the listed tensors give equal results, module by module (`StateFacts`, `StateNets`, `StateOther`); names are distinct because different modules have paths that differ at the first step where they part (`StateNames.good_named`).
- **C124**: by induction over the blocks; adding zeros of the same shape changes nothing, and the positive part of a positive part is itself (`ResidFacts`).
- **C125**: tanh is applied last, and depadding only selects rows (`ResidFacts.thm_signal_range`).
- **C126**: c + 1 is rounded once and the product with a power of two is exact, also for depth 0 (a value above -1 is at least 2^-24 above), so the keys at all depths are the exact keys of the rounded sum minus 1 (`NudgeFacts.nudge`); the rest of the code works on integers. The points are found by the exact theorems on the moved cloud.
- **C127**: everything before the last layer is equal under both checkpoints (the lemmas of C123, applied to the checkpoint for zero outputs), and the last layer is affine (`HeadFacts.linear_changed`).
- **C128**: the rounded sum c + 1 is a multiple of 2^-24, and of 2^-23 from 1 on, so subtracting 1/2, the floor, the fractional part and its complement are exact at depths 1 to 23; the two products of a weight are at least 2^-73 or zero, so each is off by a relative 2^-24 (Flocq's `relative_error_N_FLT_ex`).
- **C129**: a coordinate decoded from any key is below 2^18, so all positions are multiples of 2^-(t-d+1) with at most 20 bits and every operation up to the factors of the weights is exact; the products have at most 3(t-d+1) <= 24 bits when t <= d + 7, and are covered by C128's bound otherwise.
- **C130**: from 1/4 on, the position minus one half is exact (Sterbenz' lemma up to 1, a mantissa argument above); below 1/4 it rounds within [-1/2, -1/4], so the cell is the same. The fractional part and each factor then carry an absolute error of at most 5 * 2^-26, and the product of three factors in [-1, 1] at most 19 * 2^-26.
- **C131**: the comparison of Flocq is false for NaN on either side, and an infinity fails one of the two comparisons, so a kept coordinate is a number between the bounds; then C126's theorems about build_octree and the search apply to the masked cloud.
- **C132**: for coordinates of magnitude at most 2^k each of the sums and differences has an absolute error of at most 2^(k-24), so the offset from the rounded centre is at most half the rounded longest side plus 5 * 2^(k-25); the two roundings of the factor are bounded in the same way, and the side of at least 2^(k-10) turns these into an error below 2^-10 of the product.
- **C133**: the box of bbox is tight (C132_bbox), so it inherits the bounds of the cloud; C132_safe puts the normalised points in the safe range, and C126 finds them.
- **C134**: the product with -1.0 is the number with the sign changed (correct rounding of a representable number, and the sign rule for zero); the rest is an induction over the letters.
- **C135**: the computed flag is exactly 1.0 or -1.0; the product with 1.0 is the number and with -1.0 the number with the sign changed; the rest is a case analysis on the sign of the component.
- **C136**: the sum is correctly rounded, rounding to nearest is monotone, and no overflow happens below 2^60; the refutation moves 2^-30 by 1 and back.

Properties whose unrestricted statement is false of the code are proved in the restricted form (suffix `_partial` where
something is missing) and refuted by a witness (suffix `_refuted`).

## Findings: behaviour of the code that contradicts what a user would expect

Each is a theorem (refutation) or a stated special case of one.

* A coordinate equal to +1 is stored in the cell at the opposite face (C17); in single precision 1-2^-24 already rounds up and wraps (C75).
* `xyz2key` documents an int `b` but fails on it; batch indices above 32767 overflow (C01, C03); depth above 16 with a coordinate of 2^16 or more raises IndexError.
* `search_xyzb` answers for the wrapped-around cell when a coordinate is out of range (C08); `octree_linear_pts` with the default
  `bound_check=False` therefore mixes features of the opposite border (C55).
* `construct_all_neigh` raises TypeError for `full_depth=0` (C72).
* `merge_octrees` on members that are batches clears their batch index and gives duplicate keys (C30); a batched build leaves
  `batch_nnum` zero (C18); only the first octree decides which signals are merged.
* `max_buffer` smaller than one row's buffer raises ZeroDivisionError (C35); `OctreeDeconv` in direct mode with no rows raises (C38).
* `octree_max_pool` with `nempty` returns -inf for nodes without non-empty children (C44); `octree_avg_pool` with stride 2 and
  `nempty=False` returns the non-empty rows only (C46).
* `OctreeInterp.forward` rescales the caller's points in place (C56). `octree_align` with an empty source raises IndexError (C57).
* `Points.to` loses `batch_size`; indexing and clip drop `batch_npt` (C65); a 1-D `batch_id` is always rejected, so `Octree.to_points`
  always raises (C66). `flip` and `orient_normal('xyz')` mutate the caller's tensors; `flip` with an unknown letter raises after a partial effect (C61).
  Two clouds made from one tensor therefore flip together, and flip does nothing to a cloud whose points serve as its normals (C92).
* `CollateBatch` writes every key containing 'label' to `outputs['label']` (C70). `Transform` pops from the caller's sample and mutates its arrays (C77).
* `SegNet` with `nempty=True` raises AssertionError unless the bottleneck layer has no empty node (C68); `LeNet` needs `depth - stages = 2`;
  `HRNet`'s classification head hard-codes depth 2 (C67). `OctreeResBlock2` with stride 2 uses an undefined attribute.
* Decoding of shape codes is not batch invariant: `octree_split` forces node 0 to split only if no node of the whole batch splits (C80).
* `scatter_add` of a source without columns and no `dim_size` gives size 0 (C74). Rebuilding an octree in place leaves stale neighbours and features.
* Segmentation evaluation raises as soon as a point carries a masked label: the logits are filtered before `torch.split` by point counts (C84).
* Chunk numbers of two digits are merged into a scene called `<scene>.` because eight characters are cut off (C86); the number of chunks is
  computed from the maximum corner instead of the extent, so scenes with negative coordinates lose points (C87).
* The auto-encoder's loss with one output channel silently compares it with each of the four target channels (C91).
* `Transform` with `scale=1` can draw the factor 0, on which `Points.scale` raises (C89). `Image2Shape(image)` with its default arguments always raises (C90).
* The colour augmentation of ScanNet divides by zero on a channel with one value only: all its colours become nan (C94); a cloud darker than 1/255 raises AssertionError.
* SemanticKITTI: bus, on-rails and lane-marking are mapped to 0 (C88). `result_callback` raises KeyError for `LOSS.mask < -1` and ZeroDivisionError if no class is left (C83).
* `OUNet` cannot be constructed: it passes `code_channel` to a constructor without that parameter (C96), so the completion project always stops in `get_model`; its `encoder` would call the undefined `get_input_feature`, and its bottleneck has another width than the decoder expects.
- **C98** `process_scannet` skips a scene if its output exists, and writes the output under its final name. A run that is killed during that write leaves a truncated file which no later run replaces (`C98_resume_refuted`).
- **C99** `_clean_off_file` truncates and rewrites the mesh in place. A run that is killed there loses the mesh: later runs find no OFF file, report an error and still set the flag that cleaning is done, and the flag of the extraction prevents a new extraction (`C99_clean_refuted`).
- (not a theorem) `convert_mesh_to_points` lists `car/train/car_0021.off.off`, which has the suffix twice; the comment above it speaks of three files, the list has four.
- **C100** In `calc_iou` a class that no file contains counts as IoU 0, so predictions that are right everywhere score only the share of the classes that occur (`C100_perfect`); `IoU_per_shape` of segmentation.py leaves such classes out (C83). One file without labelled points makes the printed accuracy nan (`C100_scores`).
- **C103** segmentation.py:60-61: when the batch is merged by the data loader, `batch['points'].cuda()` returns a cloud with batch_size 1 (Points.to does not copy it), so the two branches of process_batch differ in that field; nothing in the step reads it (C103).
- **C106** Points.save stores features under 'features' while ReadNpz looks for 'colors': a cloud saved by the library can never be read with has_color=True (C106_read).
- **C107** save_points_to_ply fails for a file name without a folder: os.path.dirname is '' and os.makedirs('') raises FileNotFoundError (C107_bare_refuted).
- **C107** seg_shapenet.txt_to_ply fails with IndexError for a text file of a single point, since np.loadtxt then returns a vector (C107_single_refuted).
- **C109** seg_shapenet.generate_filelist selects lines by 'c in line'; a shape whose name contains another category code is listed for both categories (C109_refuted).
- **C110**: a translation by a cell of a layer finer than the one ResNet pools to changes the pooled layers (`C110_finer_case`).
- **C113** (`C113_bias_case`, `C113_lost_case`, `C113_twice_case`): upgrade_ckpt.py renames `x.conv1x1.conv1x1.weight` to `x.conv.linear.weight` but the bias of the same layer to `x.conv1x1.linear.bias`; names that become equal overwrite each other silently; a second run raises an error or permutes weights again.
- `run_seg_shapenet.py:61-62`: the log folder names the ratio with two digits, so `--ratios 0.125 0.1171875` trains twice into the same folders and reports the second results in both rows (C120_results_refuted).
- `run_seg_shapenet.py:61` builds the log folder with `os.path.join`, and line 95 by formatting: with an empty or absolute `--alias` the logs are written outside `logs/seg_shapenet` and the summary fails (C120_alias_refuted).
- In single precision the average of many points of one cell can leave the cell: 1024 copies of one point at depth 16 are stored in the next cell, and their local coordinate has the wrong sign (C122_crowded_refuted). Up to 2^(24-depth) points per cell this cannot happen (C122_cell).
- `clip(esp=0)` in single precision keeps a point with coordinate 1 - 2^-24, the one value below 1 that build_octree wraps to the opposite face (C131_no_margin with C75). The default margin excludes it.
- `normalize` in single precision does not bring a cloud into [-scale, scale] when the cloud lies far from the origin compared with its size: the rounded centre can be at a face of the box. C132_far_refuted has the box [2^24, 2^24 + 2], whose upper end goes to about 2; build_octree then wraps the point.
- `orient_normal` is not idempotent: a normal whose component along the axis is zero is reversed by every call (C135_again).
- `translate` by d and then by -d does not restore the cloud in single precision (C136_back_refuted).

## Trusted base

* Coq's kernel, including `vm_compute` (finite tables, examples and witnesses).
* The reading of /repo into the model (each definition cites file and lines; simplifications are stated in the comment) and the
  models of torch primitives in `Tensor.v`, `Num.v`, `NnBasic.v`.
* For C75, C122, C126, C128 and C129, Flocq's formalisation of IEEE 754 (definitions only; its theorems are proved).
* Axioms: only those of the standard library's reals and classical logic (through `Reals` and Flocq), where `R` is used. What
  `Print Assumptions` lists for each theorem:

<!-- ASSUMPTIONS BEGIN (tools/assumptions.py) -->

* **Closed under the global context (no axiom)** (344 theorems): C79_batched, C79_feature, C79_unet, C79_segnet, C79_lenet, C79_resnet, C79_hrnet, C79_autoencoder, C80_decode_refuted, C120_tables, C120_command, C120_share, C120_whole, C120_results_partial, C120_means, C120_printed, C120_results_refuted, C120_alias_refuted, C09_finest_nodes_are_occupied_cells, C10_point_to_node_map, C11_build_well_formed, C11_layer_invariants, C12_layer_occupancy, C12_full_layers_complete, C13_counters_truthful, C14_signals_are_averages, C15_average_stays_in_cell, C16_point_order_irrelevant, C17_half_open_range, C17_closed_range_refuted, C113_upgrade, C113_upgrade_fails, C113_replace, C113_listing, C113_file, C114_sample_files, C114_view, C114_unknown_type, C33_pad_depad, C34_col_adjoint, C35_buffer_independent, C35_small_buffer_fails, C36_dense_stride1, C36_dense_stride2, C37_conv_gradients, C38_deconv_transpose, C38_deconv_gradients, C38_deconv_buffer_independent, C38_deconv_no_rows_fails, C39_dwconv_diagonal, C39_dwconv_gradients, C40_group_conv, C41_conv_of_merged, C50_voxels, C70_collate, C70_missing_key, C70_label_names_refuted, C77_transform, C78_pipeline, C80_decode_partial, C82_replay, C82_reproduce, C81_values, C81_wf, C81_back, C81_neigh, C81_merge, C81_copy, C81_same, C15_coordinate_range, C71_layout, C71_letters, C71_missing, C71_module, C108_modelnet, C108_nested, C108_all, C108_represented, C108_not40, C108_split, C108_split_all, C108_kitti, C109_partial, C109_refuted, C106_npz, C106_xyz, C106_xyz_none, C106_errors, C106_read, C107_round, C107_bare_refuted, C107_errors, C107_modelnet, C107_modelnet_npz, C107_shapenet, C107_parts, C107_single_refuted, C118_conv, C118_dwconv, C118_deconv, C119_conv, C119_dwconv, C119_deconv, C119_deconv_forward, C119_conv_stride2, C119_dwconv_stride2, C119_deconv_stride2, C19_split, C20_histories, C21_regrow, C21_regrow_built, C22_init_dense, C127_unet, C127_segnet, C127_lenet, C127_resnet, C127_hrnet, C127_last_layer, C28_queries_do_not_modify, C51_nearest, C52_nearest_upsample, C53_upsample, C53_same_layer, C53_coarser_rejected, C53_default_target, C54_linear, C54_convex, C55_interior_partial, C55_border_refuted, C55_upsample_partial, C55_upsample_refuted, C56_reuse_partial, C56_tensor_changes, C56_reuse_refuted, C57_align_partial, C57_empty_source_refuted, C01_encode_decode_roundtrip, C01_roundtrip_no_batch, C02_decode_encode_roundtrip, C03_bit_layout, C03_coordinates_wrap, C03_table_equals_loop, C03_int_batch_rejected, C04_parent_and_octant, C05_key_order, C05_keys_injective, C06_tables_history_independent, C128_matrix, C121_conv, C121_deconv, C121_interp, C121_unet, C121_nodes, C121_scene, C18_batched_build, C29_merge, C29_cells, C30_batched_members_refuted, C31_merge_points, C31_batch_id, C31_split_recovers, C31_missing_attribute, C32_merged_neighbours, C110_motions, C110_conv, C110_pool, C110_global_pool, C110_resnet, C110_input, C110_cloud, C115_child, C115_pool_indices, C115_unpool, C115_upsample, C115_hrnet, C115_hrnet_cloud, C115_segnet, C115_segnet_cloud, C112_firsts, C112_conv, C112_deconv, C112_interp, C112_unet, C112_cloud, C112_own_points, C23_neighbourhoods_correct, C24_symmetric_same_batch, C25_full_sparse_agree, C26_get_neigh_stride1, C26_get_neigh_stride2, C26_other_strides_rejected, C27_other_kernels_rejected, C27_kernel_boxes, C72_root_only_always_fails, C72_every_octree_refuted, C72_works_with_root_table, C67_unet, C67_lenet, C67_resnet, C67_hrnet, C67_built, C68_segnet_partial, C68_segnet_raises, C68_segnet_refuted, C73_decode, C73_autoencoder, C73_autoencoder_fixed, C96_call, C96_construct_refuted, C96_completion_refuted, C96_decoder_partial, C96_shared_partial, C96_encoder_refuted, C96_grow_partial, C58_constructor, C59_clip, C59_inbox, C59_clip_then_build, C65_to_partial, C65_slice_partial, C65_bookkeeping_refuted, C66_column_ids_partial, C66_flat_ids_refuted, C66_to_points_refuted, C42_max_pool, C43_unpool, C43_round_trip, C44_finite_iff_branching, C44_built_partial, C44_merged_partial, C44_built_refuted, C44_grown_refuted, C45_avg_pool, C46_avg_height_partial, C46_avg_height_refuted, C47_global_pool, C47_merged, C49_drop_path, C49_given_batch_id, C49_identity, C49_all_dropped, C93_kitti, C93_segmentation, C93_autoencoder, C93_completion, C93_scannet, C93_scannet_distort, C94_colors, C94_range, C94_dark, C94_numbers_refuted, C95_round, C95_distance, C83_iou, C83_accuracy, C83_order, C83_callback, C83_callback_bad, C84_votes_partial, C84_masked_refuted, C85_points, C85_decoded, C85_near, C85_plane, C86_merge_partial, C86_digits_refuted, C87_chunks_partial, C87_chunks_refuted, C87_whole, C88_scannet, C88_kitti, C88_kitti_bad, C89_parameters, C89_transform, C89_neutral, C89_raises, C89_scale_one, C100_scores, C100_range, C100_perfect, C100_unlabelled, C101_labels, C07_search_key_exact, C08_search_xyzb_exact, C08_out_of_range_aliases, C08_unrestricted_refuted, C90_image2shape, C90_fixed, C90_default, C91_loss, C91_perfect, C91_widths, C117_resnet, C117_hrnet, C117_unet, C117_segnet, C103_two_ways, C103_process, C104_unet, C104_segnet, C105_lenet, C105_resnet, C105_hrnet, C123_unet, C123_lenet, C123_resnet, C123_hrnet, C123_segnet, C123_autoencoder, C123_decoders, C123_names, C124_zero_branch, C124_nonneg, C125_bounded, C125_decoders, C111_resolution, C111_cells, C111_neigh, C111_more_points, C97_kept, C97_crash, C98_complete, C98_resume_partial, C98_resume_refuted, C99_unzip, C99_clean_partial, C99_clean_refuted, C116_training, C116_classes, C116_labels, C116_hrnet, C116_segnet, C116_motion, C129_matrix, C69_kernel_lists, C74_scatter_rows, C74_scatter_total, C74_scatter_range, C74_scatter_columns, C74_cumsum, C74_cumsum_ends, C74_cumsum_rows, C76_example_octree, C76_other_counts

* **`ClassicalDedekindReals.sig_forall_dec`, `FunctionalExtensionality.functional_extensionality_dep`** (9 theorems): C128_output, C61_flip, C61_flip_unknown_axis, C63_orient_xyz, C63_orient_unknown_axis, C63_orient_without_normals, C64_normalize, C64_bbox, C64_normalize_by_bbox

* **`ClassicalDedekindReals.sig_forall_dec`, `ClassicalDedekindReals.sig_not_dec`, `FunctionalExtensionality.functional_extensionality_dep`** (22 theorems): C58_attributes_stay_aligned, C60_rotate_is_rigid, C60_translate, C62_scale, C62_zero_factor, C63_orient_normal, C92_values_partial, C92_frame, C92_frame_run, C92_renewed, C92_renewed_objects, C92_shared_refuted, C48_group_norm, C48_per_sample, C48_statistics, C48_instance_norm, C102_normals, C102_bad, C102_align, C102_order, C102_corner, C102_flip

* **`ClassicalDedekindReals.sig_forall_dec`, `ClassicalDedekindReals.sig_not_dec`, `Classical_Prop.classic`, `FunctionalExtensionality.functional_extensionality_dep`** (32 theorems): C75_single_precision_range, C75_single_precision_monotone, C75_single_precision_exact, C75_largest_below_one_refuted, C122_cell, C122_mean, C122_local, C122_global, C122_crowded_refuted, C128_same_cells, C126_nearby_cloud, C126_points_found, C126_batch_size, C129_same_weights, C129_nearest, C130_same_cells, C130_nearest, C131_kept, C131_clipped_found, C132_within, C132_near, C132_safe, C132_bbox, C132_far_refuted, C133_normalized_found, C134_flip, C134_unknown, C135_orient, C135_again, C135_other, C136_translate, C136_back_refuted

<!-- ASSUMPTIONS END -->
