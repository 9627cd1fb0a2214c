-Q theories Verif
theories/Base.v
theories/Dec.v
theories/Types.v
theories/State.v
theories/TickMath.v
theories/Sumtree.v
theories/Tick.v
theories/Order.v
theories/Auth.v
theories/Contract.v
theories/Query.v
theories/World.v
theories/Tests.v
theories/SpecMath.v
theories/TickMathProofs.v
theories/PropMath.v
theories/TreeDefs.v
theories/Exec.v
theories/SumtreeProofs.v
theories/SumtreeRebalance.v
theories/SumtreeInsert.v
theories/PrefixSum.v
theories/SumtreeRoot.v
theories/SumtreeFail.v
theories/Ghost.v
theories/Inv.v
theories/StepPlace.v
theories/StepCancel.v
theories/StepClaim.v
theories/SwapPlan.v
theories/StepSwap.v
theories/Trans.v
theories/Spec.v
theories/Reach.v
theories/Refine.v
theories/RefineStep.v
theories/Reserve.v
theories/Solvency.v
theories/Books.v
theories/SpecProps.v
theories/PropBase.v
theories/PropOrders.v
theories/PropClaims.v
theories/PropHistory.v
theories/PropSwap.v
theories/PropQuote.v
theories/PropBatch.v
theories/PropIsolation.v
theories/PropBooks.v
theories/SpecTree.v
theories/PropTree.v
theories/SpecAdmin.v
theories/PropAdmin.v
theories/SpecQuery.v
theories/PropQuery.v
theories/SpecEvents.v
theories/PropEvents.v
theories/SpecSettings.v
theories/PropSettings.v
theories/PlanCurve.v
theories/PropCurve.v
theories/SpecFree.v
theories/PropFree.v
theories/SpecBank.v
theories/PropBank.v
theories/SpecLife.v
theories/PropLife.v
theories/SpecMachine.v
theories/MachineBase.v
theories/MachineSwap.v
theories/PropMachine.v
theories/SpecTrace.v
theories/PropTrace.v
theories/SpecNames.v
theories/PropNames.v
theories/SpecAlike.v
theories/PropAlike.v
theories/SpecCommute.v
theories/PropCommute.v
theories/PropPriority.v
theories/PropDepth.v
theories/SpecSpot.v
theories/PropSpot.v
theories/SpecBehind.v
theories/PropBehind.v
theories/SpecAccount.v
theories/PropAccount.v
theories/PropPrice.v
theories/SpecBuy.v
theories/PropBuy.v
theories/SpecPaging.v
theories/PropPaging.v
theories/Delete.v
theories/SpecDelete.v
theories/PropDelete.v
theories/SpecCost.v
theories/PropCost.v
theories/SpecCover.v
theories/PropCover.v
theories/SpecSize.v
theories/PropSize.v
theories/SpecWhy.v
theories/PropWhy.v
theories/SpecReads.v
theories/PropReads.v
theories/PropScan.v
theories/Keys.v
theories/SpecKeys.v
theories/PropKeys.v
theories/Wire.v
theories/WireProofs.v
theories/Codec.v
theories/SpecWire.v
theories/CodecProofs.v
theories/RangeProofs.v
theories/PropWire.v
theories/PropCodec.v
theories/PropDeep.v
theories/PropPages.v
theories/SpecParts.v
theories/PropParts.v
theories/SpecEarly.v
theories/PropEarly.v
theories/SpecHalves.v
theories/PropHalves.v
theories/SpecSides.v
theories/PropSides.v
theories/SpecClean.v
theories/PropClean.v
theories/SpecShrink.v
theories/PropShrink.v
theories/SpecLeft.v
theories/PropLeft.v
theories/ConfBase.v
theories/ConfE2E.v
theories/ConfOrder.v
theories/ConfTree.v
theories/ConfTick.v
theories/ConfQuery.v
theories/ConfAuth.v
theories/ConfRest.v
theories/Cases.v
