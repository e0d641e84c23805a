-Q theories Verif

theories/Model/Base.v
theories/Model/Paths.v
theories/Model/Values.v
theories/Model/Schema.v
theories/Model/Falsify.v
theories/Model/Store.v
theories/Model/Manifests.v
theories/Model/AppendOp.v
theories/Model/ReadOp.v
theories/Model/DeleteOp.v
theories/Model/Storage.v
theories/Model/Runner.v
theories/Model/RayOps.v
theories/Model/System.v
theories/Spec/Api.v
theories/Spec/Fixture.v
theories/Spec/Layout.v
theories/Spec/Separable.v
theories/Spec/Places.v
theories/Spec/FileNames.v
theories/Model/Catalog.v
theories/Spec/Catalogs.v
theories/Spec/Pruning.v
theories/Spec/Keys.v
theories/Spec/Typed.v
theories/Proofs/Lib.v
theories/Proofs/Order.v
theories/Proofs/FalsifySound.v
theories/Proofs/Stats.v
theories/Proofs/World.v
theories/Proofs/NewPaths.v
theories/Spec/Logical.v
theories/Proofs/Resolve.v
theories/Proofs/AppendSpec.v
theories/Proofs/SchemaFacts.v
theories/Proofs/ReadSpec.v
theories/Proofs/Bounds.v
theories/Proofs/Wf.v
theories/Proofs/OpSpec.v
theories/Proofs/Inv.v
theories/Proofs/FileSet.v
theories/Proofs/Ops.v
theories/Proofs/Bodies.v
theories/Proofs/Txn.v
theories/Spec/SchemaSpec.v
theories/Proofs/SchemaLaws.v
theories/Proofs/SysInv.v
theories/Proofs/ReadRun.v
theories/Proofs/Effects.v
theories/Proofs/Observe.v
theories/Proofs/View.v
theories/Proofs/Prune.v
theories/Proofs/Keys.v
theories/Proofs/DeleteEffect.v
theories/Proofs/Mutations.v
theories/Proofs/Calls.v
theories/Proofs/Total.v
theories/Proofs/Reads.v
theories/Proofs/Adds.v
theories/Proofs/Isolation.v
theories/Spec/Durable.v
theories/Proofs/Durable.v
theories/Spec/Merging.v
theories/Proofs/Merge.v
theories/Spec/Evolution.v
theories/Proofs/Evolve.v
theories/Proofs/History.v
theories/Proofs/NewId.v
theories/Spec/Serial.v
theories/Proofs/Serial.v
theories/Spec/Orderly.v
theories/Spec/Disturbed.v
theories/Spec/Free.v
theories/Proofs/Orderly.v
theories/Proofs/Succeeds.v
theories/Spec/Changes.v
theories/Proofs/Diff.v
theories/Proofs/Edge.v
theories/Proofs/Recorded.v
theories/Spec/Uniqueness.v
theories/Proofs/Unique.v
theories/Proofs/Replay.v
theories/Proofs/Bytes.v
theories/Proofs/Patches.v
theories/Proofs/PatchFacts.v
theories/Proofs/PatchEdge.v
theories/Proofs/PatchMeta.v
theories/Proofs/PatchEdges.v
theories/Spec/Supplied.v
theories/Proofs/Supplied.v
theories/Spec/Accounts.v
theories/Proofs/AppendFiles.v
theories/Model/Versions.v
theories/Spec/Versions.v
theories/Proofs/Latest.v
theories/Proofs/Starts.v
theories/Spec/Candidates.v
theories/Proofs/NoOp.v
theories/Spec/Deletion.v
theories/Spec/Sizes.v
theories/Proofs/DeleteExact.v
theories/Proofs/DeleteTotal.v
theories/Proofs/DeleteOutcome.v
theories/Proofs/UpsertOutcome.v
theories/Proofs/DeleteBytes.v
theories/Proofs/Written.v
theories/Spec/RuledOut.v
theories/Proofs/RuledOut.v
theories/Proofs/Frame.v
theories/Spec/Loading.v
theories/Proofs/Loads.v
theories/Model/Serializers.v
theories/Proofs/Serialize.v
theories/Model/RandomAccess.v
theories/Spec/Access.v
theories/Spec/Views.v
theories/Spec/Joins.v
theories/Spec/JoinFolds.v
theories/Spec/JoinRequests.v
theories/Spec/Joinable.v
theories/Proofs/Access.v
theories/Proofs/Sources.v
theories/Model/Views.v
theories/Model/Join.v
theories/Model/JoinFold.v
theories/Proofs/AnyOp.v
theories/Proofs/Shards.v
theories/Proofs/RayAppend.v
theories/Proofs/RayAccounts.v
theories/Proofs/RayRead.v
theories/Proofs/RayDiff.v
theories/Proofs/RayDelete.v
theories/Proofs/RayInsert.v
theories/Proofs/RayEffects.v
theories/Proofs/Fits.v
theories/Proofs/RayOutcomes.v
theories/Proofs/RayDeleteExact.v
theories/Proofs/RayDeleteOutcome.v
theories/Proofs/RayUpsertOutcome.v
theories/Proofs/PathFacts.v
theories/Proofs/Catalogs.v
theories/Proofs/ViewPlans.v
theories/Proofs/Joins.v
theories/Proofs/JoinCalls.v
theories/Proofs/JoinAccept.v
theories/Model/Refresh.v
theories/Spec/Refreshing.v
theories/Proofs/RefreshStep.v
theories/Proofs/RefreshEffect.v
theories/Proofs/RefreshLoop.v
theories/Proofs/RefreshSource.v
theories/Proofs/RefreshRun.v
theories/Proofs/RefreshPath.v
theories/Proofs/RefreshInv.v
theories/Proofs/Refreshed.v
theories/Spec/RefreshStops.v
theories/Proofs/RefreshStop.v
theories/Proofs/RefreshStopped.v
theories/Spec/References.v
theories/Proofs/RefCalls.v
theories/Model/ViewRead.v
theories/Model/ViewJoin.v
theories/Model/ViewDiff.v
theories/Model/MvRead.v
theories/Spec/ViewReads.v
theories/Spec/ViewJoins.v
theories/Spec/ViewDiffs.v
theories/Spec/MvDiffs.v
theories/Proofs/ViewReads.v
theories/Proofs/ViewShape.v
theories/Proofs/ViewJoins.v
theories/Proofs/JoinAsk.v
theories/Proofs/JoinFold.v
theories/Proofs/JoinFoldRun.v
theories/Model/ViewJoinFold.v
theories/Spec/ViewJoinFolds.v
theories/Proofs/ViewJoinFold.v
theories/Proofs/IndexFiles.v
theories/Proofs/ViewDiffs.v
theories/Proofs/MvDiffs.v
theories/Proofs/Provenance.v
theories/Spec/Split.v
theories/Proofs/Split.v
theories/Proofs/Witness.v
theories/Proofs/DisturbedWitness.v
theories/Proofs/FreeWitness.v
theories/Proofs/RefreshWitness.v
theories/Props/C01.v
theories/Props/C02.v
theories/Props/C03.v
theories/Props/C04.v
theories/Props/C05.v
theories/Props/C06.v
theories/Props/C07.v
theories/Props/C08.v
theories/Props/C09.v
theories/Props/C10.v
theories/Proofs/AppendTotal.v
theories/Props/C11.v
theories/Props/C12.v
theories/Props/C13.v
theories/Props/C14.v
theories/Props/C15.v
theories/Props/C16.v
theories/Props/C17.v
theories/Props/C18.v
theories/Props/C19.v
theories/Props/C20.v
theories/Props/C21.v
theories/Props/C22.v
theories/Props/C23.v
theories/Props/C24.v
theories/Props/C25.v
theories/Props/C26.v
theories/Props/C27.v
theories/Props/C28.v
theories/Props/C29.v
theories/Props/C30.v
theories/Props/C31.v
theories/Props/C32.v
theories/Props/C33.v
theories/Props/C34.v
theories/Props/C35.v
theories/Props/C36.v
theories/Props/C37.v
theories/Props/C38.v
theories/Props/C39.v
theories/Props/C40.v
theories/Props/C41.v
theories/Props/C42.v
theories/Props/C43.v
theories/Props/C44.v
theories/Props/C45.v
theories/Props/C46.v
theories/Props/C47.v
theories/Props/C48.v
theories/Props/C49.v
theories/Props/C50.v
theories/Props/C51.v
theories/Props/C52.v
theories/Props/C53.v
theories/Props/C54.v
theories/Props/C55.v
theories/Props/C56.v
theories/Props/C57.v
theories/Props/C58.v
theories/Props/C59.v
theories/Props/C60.v
theories/Props/C61.v
theories/Props/C62.v
theories/Props/C63.v
theories/Props/C64.v
theories/Props/C65.v
