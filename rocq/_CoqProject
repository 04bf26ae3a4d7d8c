-Q theories Verif
theories/PyBase.v
theories/PyNum.v
theories/Utf8.v
theories/PyVal.v
theories/Tools.v
theories/DsNodes.v
theories/DsHeaders.v
theories/DsGroups.v
theories/Ds55.v
theories/Ds58.v
theories/Ds2414.v
theories/Uff.v
theories/Facts.v
theories/Scan.v
theories/Container.v
theories/Append.v
theories/ContainerThms.v
theories/PropContainer.v
theories/IntFacts.v
theories/QFacts.v
theories/FloatFacts.v
theories/DecFacts.v
theories/FloatText.v
theories/FloatExact.v
theories/Utf8Facts.v
theories/DictFacts.v
theories/PropText.v
theories/Lines.v
theories/Stored.v
theories/Cells.v
theories/Rows.v
theories/RtNodes.v
theories/RtCs.v
theories/Witness.v
theories/PropNodes.v
theories/RtHeads.v
theories/PropHeads.v
theories/RtElems.v
theories/RtGroups.v
theories/PropGroups.v
theories/CplxFacts.v
theories/RtNodal.v
theories/PropNodal.v
theories/RtFun.v
theories/RtFunSet.v
theories/PropFun.v
theories/RtAnalysis.v
theories/PropAnalysis.v
theories/PropHistory.v
theories/SubFacts.v
theories/Stable.v
theories/Stable2.v
theories/Stable3.v
theories/PropStable.v
theories/Fix58.v
theories/PropFix.v
theories/Term.v
theories/PropTerm.v
theories/Prepare.v
theories/PropPrepare.v
theories/PropConvert.v
theories/PropImitate.v
theories/Layout.v
theories/PropLayout.v
theories/PropExact.v
theories/Reading.v
theories/ReadNodes.v
theories/ReadSets.v
theories/Read55.v
theories/Read58.v
theories/Read2414.v
theories/PropReading.v
theories/Ieee.v
theories/PropBinary.v
theories/PropCodes.v
theories/PropNearest.v
theories/PropNumeral.v
theories/World.v
theories/PropWorld.v
theories/PropCaller.v
theories/Samples.v
theories/Accept.v
theories/PropAccept.v
theories/PropAccept2.v
theories/PropAccept3.v
theories/PropAccept4.v
theories/Returns.v
theories/PropGeneral.v
theories/PropSingle.v
theories/PropUnclosed.v
theories/PropAccept5.v
theories/PropOptional.v
theories/PropKinds.v
theories/PropNegative.v
theories/PropTouch.v
theories/PropFull.v
theories/PropOpen.v
theories/PropMemory.v
theories/PropNames.v
theories/PropPayload.v
theories/PropLater.v
theories/PropLong.v
theories/PropJoined.v
theories/PropLists.v
theories/PropSixth.v
theories/Access.v
theories/PropAccess.v
theories/PropMissing.v
theories/PropMessages.v
theories/PropEmpty.v
theories/PropStatus.v
theories/PropGroupCheck.v
theories/PropRegroup.v
theories/PropSettle.v
theories/PropReread.v
theories/PropRagged.v
